(** What an observer of the file writer is told, without the writer: from the calls of the program and the document. *)
From Coq Require Import List NArith ZArith Bool String.
From Verif.Model Require Import Base Object Xref Observers.
From Verif.Spec Require Import FileWrite.
Import ListNotations.
Local Open Scope N_scope.

(** the last call about observer [i] subscribed it *)
Fixpoint subscribed (i : nat) (calls : list op) (so_far : bool) : bool :=
  match calls with
  | [] => so_far
  | OSubscribe j :: t => subscribed i t (if Nat.eqb i j then true else so_far)
  | OUnsubscribe j :: t => subscribed i t (if Nat.eqb i j then false else so_far)
  | _ :: t => subscribed i t so_far
  end.
Definition is_subscribed (calls : list op) (i : nat) : Prop := subscribed i calls false = true.
Definition is_released (calls : list op) (i : nat) : Prop := In (ORelease i) calls.

(** the addresses observers were made at, in order *)
Fixpoint addresses (calls : list op) : list N :=
  match calls with
  | [] => []
  | OMake a :: t => a :: addresses t
  | _ :: t => addresses t
  end.

(** every observer is unsubscribed, or never was subscribed, when it is released *)
Definition tidy (calls : list op) : Prop :=
  forall before i after, calls = before ++ ORelease i :: after -> ~ is_subscribed before i.
(** no address is used twice *)
Definition fresh_addresses (calls : list op) : Prop := NoDup (addresses calls).

(** the objects of a section that are written: every entry in use, in order *)
Definition in_use (e : xentry) : bool := match xdata e with KFree _ => false | KUsed _ b => b | KComp _ _ => true end.

(** what is told about one object whose text begins at [offset] *)
Definition object_events (e : xentry) (offset : Z) : list event :=
  match xdata e with
  | KUsed old _ => [EBeforeEntryOffset (xnum e) (xgen e) old; EAfterEntryOffset (xnum e) (xgen e) offset]
  | _ => []
  end ++
  [EBeforeObjectOffset (xnum e) (xgen e); EAfterObjectOffset (xnum e) (xgen e) offset; EBeforeWrite (xnum e) (xgen e);
   EAfterWrite (xnum e) (xgen e)].

(** the same, with the sizes the output has when it is told: [size] before and [size'] after the text of the object *)
Definition object_told (e : xentry) (size size' : N) : list (event * N) :=
  map (fun ev => (ev, match ev with EAfterWrite _ _ => size' | _ => size end)) (object_events e (Z.of_N size)).

(** the objects, one after another, from size [size] to size [size'] of a file: between the calls the text of the object, and nothing
    else, is put into the file *)
Inductive told (file : bytes) : N -> list xentry -> list (event * N) -> N -> Prop :=
| told_end : forall size, told file size [] [] size
| told_unused : forall size e l calls size', in_use e = false -> told file size l calls size' -> told file size (e :: l) calls size'
| told_object : forall size e text l calls size', in_use e = true ->
    starts_at file (Z.of_N size) (object_heading (xnum e) (xgen e) ++ text ++ [10] ++ str "endobj" ++ [10]) ->
    let after := size + N.of_nat (List.length (object_heading (xnum e) (xgen e) ++ text ++ [10] ++ str "endobj" ++ [10])) in
    told file after l calls size' ->
    told file size (e :: l) (object_told e size after ++ calls) size'.

(** what observer [i] was told, oldest first *)
Definition heard (i : nat) (h : log) : list (event * N) :=
  map (fun c => (snd (fst c), snd c)) (filter (fun c => Nat.eqb i (fst (fst c))) (rev h)).

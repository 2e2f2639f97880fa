(** What the change tracking is for. *)
From Coq Require Import List NArith ZArith Bool PeanoNat Relations.
From Verif.Model Require Import Base SMap Containers Heap.
Import ListNotations.

(** [y] is [x] or a container, at any depth, of [x]. *)
Inductive above (h : heap) (x : nat) : nat -> Prop :=
| above_self : above h x x
| above_up : forall y p, above h x y -> In y (children (ncont (h p))) -> above h x p.

(** ... and every object on the way, both ends included, is initialised (SetInitialized was called on it). *)
Inductive live_above (h : heap) (x : nat) : nat -> Prop :=
| live_self : ninit (h x) = true -> live_above h x x
| live_up : forall y p, live_above h x y -> In y (children (ncont (h p))) -> ninit (h p) = true -> live_above h x p.

(** The hash computed from the values alone, without caches ([None]: nested deeper than [fuel]). *)
Section Fresh.
Variable hl : leaf -> N.
Variable hk : bytes -> N.
Definition leaf_hash (l : leaf) : N := match l with LStr s _ => hl (LStr s true) | _ => hl l end.
Fixpoint fresh_items (fresh : nat -> option N) (acc : N) (l : list (N * nat)) : option N :=
  match l with
  | [] => Some acc
  | (k, c) :: t => match fresh c with Some v => fresh_items fresh (N.lxor (N.lxor acc k) v) t | None => None end
  end.
Fixpoint fresh_hash (fuel : nat) (h : heap) (x : nat) {struct fuel} : option N :=
  match fuel with
  | O => None
  | S f =>
      match ncont (h x) with
      | CLeaf l => Some (leaf_hash l)
      | CArr l => fresh_items (fresh_hash f h) 0%N (map (fun c => (0%N, c)) l)
      | CDict m => fresh_items (fresh_hash f h) 0%N (map (fun e => (hk (fst e), snd e)) m)
      | CStream c _ => fresh_hash f h c
      end
  end.
Definition hash_of (h : heap) (x : nat) (v : N) : Prop := exists fuel, fresh_hash fuel h x = Some v.
End Fresh.

(** ** Histories *)
(** Objects as they are created: no cached hash, containers empty; a stream comes with its own empty header, which it observes
    (stream_object.cpp:19-40); nothing else is observed. *)
Definition created (h : heap) : Prop :=
  forall x, ncache (h x) = 0%N /\
    match ncont (h x) with
    | CStream c _ => ncont (h c) = CDict [] /\ nobs (h c) = [x]
    | c => children c = []
    end /\
    (forall o, In o (nobs (h x)) -> exists b, ncont (h o) = CStream x b).

(** [c] would be told, directly or through others, when [x] changes. *)
Definition told (h : heap) : nat -> nat -> Prop := clos_refl_trans_1n _ (fun x o => In o (nobs (h x))).

Definition is_null (h : heap) (c : nat) : Prop := ncont (h c) = CLeaf LNull.

(** Putting [c] into [x] is sound: [c] is not in [x] yet and [x] does not end up inside itself. *)
Definition may_attach (h : heap) (x c : nat) : Prop :=
  ~ told h x c /\ (is_null h c \/ ~ In c (children (ncont (h x)))).

(** Every object through which the edit of [x] must be heard is initialised. *)
Definition audible (h : heap) (x : nat) : Prop :=
  forall y p, above h x y -> In y (children (ncont (h p))) -> ninit (h y) = true.

(** The calls that keep the tracking right.  Left out, each with a refutation: setting a number, clearing an array, merging
    dictionaries, setting a string that was never read. *)
Definition sound_call (h : heap) (o : heap_op) : Prop :=
  match o with
  | OSetInit _ _ | OHash _ => True
  | OSetLeaf x l =>
      audible h x /\
      match ncont (h x), l with
      | CLeaf (LBool _), LBool _ | CLeaf (LName _), LName _ | CLeaf (LRef _ _), LRef _ _ => True
      | _, _ => False
      end
  | OSetNumber _ _ => False
  | OSetString x _ => audible h x /\ exists v, ncont (h x) = CLeaf (LStr v true)
  | OArrAppend x c | OArrInsert x _ c | OArrSet x _ c => audible h x /\ may_attach h x c
  | OArrRemove x _ => audible h x
  | OArrClear _ => False
  | ODictInsert x k c _ => audible h x /\ may_attach h x c
  | ODictRemove x _ | ODictClear x => audible h x
  | ODictMerge _ _ => False
  | OStreamHeader x c => audible h x /\ may_attach h x c
  | OStreamBody x _ => audible h x
  end.

Inductive history (hl : leaf -> N) (hk : bytes -> N) : heap -> Prop :=
| hist_start : forall h, created h -> history hl hk h
| hist_call : forall h o fuel h', history hl hk h -> sound_call h o -> heap_step hl hk fuel h o = Ok h' -> history hl hk h'.

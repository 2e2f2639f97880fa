(** Following references, with the target each reference object remembers.

    Objects of the file are given by their numbers (generations left out).  A reference object is a cell: the one the caller holds
    ([User]) or the one stored as indirect object [n] ([Obj n]).  A cell remembers its target as a weak reference
    (indirect_reference_object.h:51); a weak reference is active while the counter of its target is
    (utils/unknown_interface.h:14-120).  The counter of an object is created with the first weak reference to it (200-214).
    DereferenceHelper copies reference objects into its visited map; a copy shares the counter of the original
    (IWeakReferenceable copy constructor, unknown_interface.h:181), and deactivates it when the map is destroyed (187-191). *)
From Coq Require Import List NArith Bool.
Import ListNotations.
Local Open Scope N_scope.

Inductive iobj : Type :=
| IRef (n : N)        (* n 0 R *)
| INull               (* null or missing *)
| IOther (v : N).     (* anything else *)

Inductive cell : Type := User | Obj (n : N).
Definition cell_eqb (a b : cell) : bool :=
  match a, b with User, User => true | Obj n, Obj m => n =? m | _, _ => false end.

Record rstate := { cached : cell -> bool; counted : N -> bool; alive : N -> bool }.
Definition cell_upd (m : cell -> bool) (c : cell) (v : bool) : cell -> bool := fun d => if cell_eqb d c then v else m d.
Definition num_upd (m : N -> bool) (n : N) (v : bool) : N -> bool := fun k => if k =? n then v else m k.

(** What a call does: returns, throws GeneralException, or is still running when the fuel is used up. *)
Inductive out (A : Type) : Type :=
| Ret (s : rstate) (a : A)
| Exc (s : rstate)
| Running.
Arguments Ret {A} s a.
Arguments Exc {A} s.
Arguments Running {A}.

Section Deref.
Variable file : N -> iobj.       (* File::GetIndirectObject *)
Variable user : N.               (* what the caller's reference refers to *)

Definition tgt (c : cell) : N :=
  match c with
  | User => user
  | Obj n => match file n with IRef m => m | _ => 0 end
  end.

(** WeakReference: not IsEmpty and IsActive, unknown_interface.h:63-69 *)
Definition active (s : rstate) (c : cell) : bool := cached s c && counted s (tgt c) && alive s (tgt c).

(** m_reference = new_reference, indirect_reference_object.cpp:195 *)
Definition remember (s : rstate) (c : cell) : rstate :=
  {| cached := cell_upd (cached s) c true;
     counted := num_upd (counted s) (tgt c) true;
     alive := if counted s (tgt c) then alive s else num_upd (alive s) (tgt c) true |}.

(** An entry of the visited map: the number, and the object whose counter the copy shares. *)
Definition entry : Type := N * option N.
Definition copy_of (s : rstate) (c : cell) : entry :=
  (tgt c, match c with Obj n => if counted s n then Some n else None | User => None end).
Definition destroy (s : rstate) (visited : list entry) : rstate :=
  fold_left (fun s e => match snd e with
                        | Some n => {| cached := cached s; counted := counted s; alive := num_upd (alive s) n false |}
                        | None => s
                        end) visited s.
Definition seen_number (n : N) (visited : list entry) : bool := existsb (fun e => fst e =? n) visited.

(** continue, running [unwind] when an exception passes *)
Definition obind {A B} (unwind : rstate -> rstate) (m : out A) (k : rstate -> A -> out B) : out B :=
  match m with Ret s a => k s a | Exc s => Exc (unwind s) | Running => Running end.

(** IsReferenceInitialized (indirect_reference_object.cpp:64-74): asks whether the remembered object is null, which follows
    references with a visited map of its own.  GetReferencedObject (174-197).  DereferenceHelper::Get (object_utils.h:132-159).
    Simplification: one comparison of the current reference with the visited ones asks for its number once, and the copies in the map
    answer with their stored number. *)
Fixpoint is_init (fuel : nat) (s : rstate) (c : cell) {struct fuel} : out bool :=
  match fuel with
  | O => Running
  | S f =>
      if negb (active s c) then Ret s false
      else match file (tgt c) with
           | INull => Ret s false
           | IOther _ => Ret s true
           | IRef _ => obind (fun s => s) (get f s [] (Obj (tgt c)))
                             (fun s1 o => Ret s1 (match o with INull => false | _ => true end))
           end
  end
with get_ref (fuel : nat) (s : rstate) (c : cell) {struct fuel} : out N :=
  match fuel with
  | O => Running
  | S f =>
      obind (fun s => s) (is_init f s c) (fun s1 b =>
        if b then Ret s1 (tgt c)
        else obind (fun s => s) (is_init f s1 c) (fun s2 b2 =>
          if b2 then Ret s2 (tgt c) else Ret (remember s2 c) (tgt c)))
  end
with get (fuel : nat) (s : rstate) (visited : list entry) (c : cell) {struct fuel} : out iobj :=
  match fuel with
  | O => Running
  | S f =>
      obind (fun s => destroy s visited)
        (match visited with [] => Ret s false | _ :: _ => is_init f s c end)
        (fun s1 _ =>
          if seen_number (tgt c) visited then Exc (destroy s1 visited)
          else
            let visited' := copy_of s1 c :: visited in
            obind (fun s => destroy s visited') (get_ref f s1 c) (fun s2 n =>
              match file n with
              | IRef _ => get f s2 visited' (Obj n)
              | o => Ret (destroy s2 visited') o
              end))
  end.

(** A query on the caller's reference: IsType / ConvertTo, object_utils.h:163-201 *)
Definition query (fuel : nat) (s : rstate) : out iobj := get fuel s [] User.
End Deref.

Definition fresh_state : rstate := {| cached := fun _ => false; counted := fun _ => false; alive := fun _ => false |}.

(** What is expected of a loop over a collection. *)
From Coq Require Import List NArith ZArith Bool Sorted.
From Verif.Model Require Import Base SMap Iterators.
Import ListNotations.

(** A dictionary: keys in ascending order. *)
Definition dictionary (m : smap unit) : Prop :=
  StronglySorted (fun a b => buffer_ltb a b = true) (map fst m) /\ Forall all_bytes (map fst m).
Definition ascending (l : list bytes) : Prop := StronglySorted (fun a b => buffer_ltb a b = true) l.

(** The body inserts what it likes, removes entries other than the one it stands on, and does not clear or release the dictionary. *)
Definition careful_dict (body : nat -> bytes -> list (action dict_edit)) : Prop :=
  forall i k a, In a (body i k) ->
    (exists x, a = Change (DPut x) /\ all_bytes x) \/ (exists x, a = Change (DDel x) /\ all_bytes x /\ x <> k).
Definition never_removes (body : nat -> bytes -> list (action dict_edit)) (k : bytes) : Prop := forall i x, ~ In (Change (DDel k)) (body i x).
Definition inserts (body : nat -> bytes -> list (action dict_edit)) (k : bytes) : Prop := exists i x, In (Change (DPut k)) (body i x).

(** The body removes and replaces entries other than the one it stands on, adds only numbers of a given list, and does not clear or
    release the section. *)
Definition careful_table (new : list N) (body : nat -> N -> list (action table_edit)) : Prop :=
  forall i k a, In a (body i k) ->
    (exists n, a = Change (TAdd n) /\ In n new /\ n <> k) \/ (exists n, a = Change (TDel n) /\ n <> k).
Definition leaves_alone (body : nat -> N -> list (action table_edit)) (n : N) : Prop :=
  forall i x, ~ In (Change (TAdd n)) (body i x) /\ ~ In (Change (TDel n)) (body i x).
Definition times (n : N) (l : list N) : nat := count_occ N.eq_dec l n.

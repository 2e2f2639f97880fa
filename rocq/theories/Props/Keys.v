(** C75: a dictionary keeps the keys it was given.  What a dictionary answers depends on the texts of the names that were passed to it and
    on nothing that happens to those names afterwards.
    Spec: Spec/Keys.v.  Model: Model/Keys.v.  [rebalance] stands for the rotations of std::map's search tree, any that keep the order. *)
From Coq Require Import List NArith ZArith Bool String Lia.
From Verif.Model Require Import Base SMap Keys.
From Verif.Spec Require Import Keys.
From Verif.Proof Require Import Keys.
Import ListNotations.
Local Open Scope N_scope.

(** In every history that does not change a name after it was passed to a dictionary or came out of one, each call answers what the
    ideal dictionaries answer; changing the other names makes no difference.
    Missing from the full statement: histories that change names that are keys. *)
Theorem C75_keys_partial : forall rebalance : tree -> tree,
  (forall t, elements (rebalance t) = elements t) ->
  forall l, Forall op_bytes l -> polite_history l ->
  snd (run rebalance empty_world l) = ideal_run no_names l.
Proof. intros re Hre l Hb Hp. apply (history re Hre l Hb Hp). Qed.

(** Without that restriction it is false after every history: once the program gives another text to the name it has just used as a key,
    the entry is not found under its key any more. *)
Theorem C75_rename_refuted : forall rebalance : tree -> tree,
  (forall t, elements (rebalance t) = elements t) ->
  forall l d h v k t,
  Forall op_bytes (l ++ [Put d h v false]) -> all_bytes t -> polite_history (l ++ [Put d h v false]) ->
  nth_error (i_names (ideal_end no_names l)) h = Some k ->
  last (ideal_run no_names (l ++ [Put d h v false])) OBadHandle = ODone -> t <> k ->
  let probe := [SetName h t; NewName k; Get d (List.length (i_names (ideal_end no_names l)))] in
  last (ideal_run no_names (l ++ [Put d h v false] ++ probe)) OBadHandle = OFound (Some v)
  /\ last (snd (run rebalance empty_world (l ++ [Put d h v false] ++ probe))) OBadHandle = OFound None.
Proof. intros re Hre. apply (renamed re Hre). Qed.

(** Nor is it found under the new text in general, while iteration shows it, out of order, and it cannot be removed: the tree is still
    that of the old texts. *)
Theorem C75_lost_refuted : forall (rebalance : tree -> tree) a b z,
  (forall t, (size t <= 2)%nat -> rebalance t = t) -> buffer_ltb a b = true -> buffer_ltb b z = true ->
  skipn 8 (snd (run rebalance empty_world
    [NewName b; NewName a; NewDict; Put 0 0 1 false; Put 0 1 2 false; SetName 1 z; NewName a; NewName z;
     Get 0 2; Get 0 3; Del 0 1; Show 0]))
  = [OFound None; OFound None; OBoolean false; OList [(z, 2%nat); (b, 1%nat)]].
Proof. exact lost. Qed.

(** Two entries of one dictionary can get the same key. *)
Theorem C75_duplicate_refuted : forall (rebalance : tree -> tree) x y,
  (forall t, elements (rebalance t) = elements t) -> all_bytes x -> all_bytes y -> x <> y ->
  exists l,
    last (snd (run rebalance empty_world
      [NewName x; NewName y; NewDict; Put 0 0 1 false; Put 0 1 2 false; SetName 0 y; Show 0])) OBadHandle = OList l
    /\ In (y, 1%nat) l /\ In (y, 2%nat) l.
Proof. intros re x y Hre Hx Hy Hne. destruct (twice re x y Hre Hx Hy Hne) as (l & A & B & C & _). exists l. auto. Qed.

(** A key that is read back from one dictionary and given another text changes the name that was used to insert it, so that this name
    finds nothing in a second dictionary that was never touched. *)
Theorem C75_shared_refuted : forall (rebalance : tree -> tree) k t,
  (forall x, elements (rebalance x) = elements x) -> all_bytes k -> all_bytes t -> t <> k ->
  let l := [NewName k; NewName k; NewDict; NewDict; Put 0 0 1 false; Put 1 1 2 false; KeyAt 0 0; SetName 2 t; Get 1 0] in
  last (ideal_run no_names l) OBadHandle = OFound (Some 2%nat)
  /\ last (snd (run rebalance empty_world l)) OBadHandle = OFound None.
Proof. exact shared. Qed.

(** A concrete case: a polite history with two dictionaries, a removed entry, a key that is read back and a name that is changed before
    it is used. *)
Definition case_ops : list op :=
  [NewName (str "Type"); NewName (str "Kids"); NewDict; NewDict; SetName 1 (str "Count"); Put 0 0 7 false; Put 0 1 8 false;
   Put 0 1 9 false; Put 0 1 9 true; Put 1 0 3 false; KeyAt 0 0; Get 0 2; Del 0 0; Get 0 0; Get 1 0; Show 0; NewName (str "Pages");
   SetName 3 (str "Count"); Get 0 3].
Example C75_case : Forall op_bytes case_ops /\ polite_history case_ops
  /\ skipn 7 (snd (run (fun t => t) empty_world case_ops))
     = [OThrow EDuplicateKey; ODone; ODone; ODone; OFound (Some 8%nat); OBoolean true; OFound None; OFound (Some 3%nat);
        OList [(str "Count", 8%nat)]; ODone; ODone; OFound (Some 8%nat)].
Proof.
  split; [|split].
  - repeat (constructor; [cbv; repeat constructor|]). constructor.
  - cbv. intuition discriminate.
  - vm_compute. reflexivity.
Qed.
(** The hypotheses of [C75_rename_refuted] are met by the first part of it. *)
Example C75_rename_case :
  let l := firstn 6 case_ops in
  Forall op_bytes (l ++ [Put 0 1 8 false]) /\ polite_history (l ++ [Put 0 1 8 false])
  /\ nth_error (i_names (ideal_end no_names l)) 1 = Some (str "Count")
  /\ last (ideal_run no_names (l ++ [Put 0 1 8 false])) OBadHandle = ODone /\ str "Length" <> str "Count"
  /\ (forall t : tree, elements ((fun x => x) t) = elements t) /\ (forall t : tree, (size t <= 2)%nat -> (fun x => x) t = t)
  /\ buffer_ltb (str "A") (str "B") = true /\ buffer_ltb (str "B") (str "Z") = true.
Proof.
  split; [|split; [|split; [|split; [|split; [|split; [|split; [|split]]]]]]].
  - repeat (constructor; [cbv; repeat constructor|]). constructor.
  - cbv. intuition discriminate.
  - vm_compute. reflexivity.
  - vm_compute. reflexivity.
  - vm_compute. discriminate.
  - reflexivity.
  - reflexivity.
  - vm_compute. reflexivity.
  - vm_compute. reflexivity.
Qed.

Print Assumptions C75_keys_partial.
Print Assumptions C75_rename_refuted.
Print Assumptions C75_lost_refuted.
Print Assumptions C75_duplicate_refuted.
Print Assumptions C75_shared_refuted.

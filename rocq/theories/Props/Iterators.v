(** C76: a loop over a collection visits each element once.  Whatever the body of the loop does to the collection, elements that it leaves
    alone are visited exactly once, and nothing is accessed that is not there.
    Spec: Spec/Iterators.v.  Model: Model/Iterators.v. *)
From Coq Require Import List NArith ZArith Bool String Sorted Lia.
From Verif.Model Require Import Base Token SMap Iterators.
From Verif.Spec Require Import Iterators.
From Verif.Proof Require Import SMap.
From Verif.Proof Require Iterators Append.
Import ListNotations.
Local Open Scope N_scope.

(** Dictionaries: the keys are visited in ascending order (so none twice), every key that was there at the start and is not removed is
    visited, nothing else is but inserted keys, and all iterators used are good.
    Missing from the full statement: bodies that remove the entry they stand on, and that clear or release the dictionary. *)
Theorem C76_dictionary_partial : forall body fuel m ks m' r,
  careful_dict body -> dictionary m -> dict_loop fuel body m = (ks, m', r) ->
  (r = Ok true \/ r = Ok false) /\ ascending ks
  /\ (r = Ok true -> forall k, In k (map fst m) -> never_removes body k -> In k ks)
  /\ (forall k, In k ks -> In k (map fst m) \/ inserts body k).
Proof. exact Iterators.dict_walk. Qed.
(** Without insertions the end is reached. *)
Theorem C76_dictionary_ends : forall body fuel m,
  careful_dict body -> dictionary m -> (forall k, ~ inserts body k) -> (List.length m < fuel)%nat ->
  snd (dict_loop fuel body m) = Ok true.
Proof. exact Iterators.dict_ends. Qed.

(** Cross-reference sections, for any order of the hash table: an entry that was there at the start and is left alone is visited exactly
    once, an entry that is not added never twice.
    Missing: bodies that replace or remove the entry they stand on, that add more entries than there is room for, and that clear or release
    the section. *)
Theorem C76_section_partial : forall place shuffle grow new body fuel t ks t' r,
  careful_table new body -> NoDup (t_items t) -> (List.length (t_items t ++ new) <= t_buckets t)%nat ->
  table_loop place shuffle grow fuel body t = (ks, t', r) ->
  (r = Ok true \/ r = Ok false)
  /\ (forall n, In n ks -> In n (t_items t) \/ exists i x, In (Change (TAdd n)) (body i x))
  /\ (forall n, (forall i x, ~ In (Change (TAdd n)) (body i x)) -> (times n ks <= 1)%nat)
  /\ (r = Ok true -> forall n, In n (t_items t) -> leaves_alone body n -> times n ks = 1%nat).
Proof. exact Iterators.table_walk. Qed.
Theorem C76_section_ends : forall place shuffle grow body fuel t,
  careful_table [] body -> NoDup (t_items t) -> (List.length (t_items t) <= t_buckets t)%nat -> (List.length (t_items t) < fuel)%nat ->
  snd (table_loop place shuffle grow fuel body t) = Ok true.
Proof. exact Iterators.table_ends. Qed.

(** Instructions: a body that changes nothing sees all of them in order.  Missing: bodies that change the collection. *)
Theorem C76_instructions_partial : forall fuel body l,
  (forall i x, body i x = []) -> (List.length l <= fuel)%nat ->
  exists ks, list_loop fuel body l = (ks, l, Ok true) /\ map snd ks = l.
Proof. intros fuel body l Hb Hl. exists (list_items l). split; [apply Iterators.list_walk; assumption|apply Iterators.items_are]. Qed.

(** What is missing is false.  Removing each entry in a loop over a dictionary that is not empty: the first step to the next entry uses
    the removed one. *)
Theorem C76_remove_current_refuted : forall fuel k m,
  exists m', dict_loop (S fuel) (fun _ x => [Change (DDel x)]) ((k, tt) :: m) = ([k], m', Undef).
Proof.
  intros fuel k m. unfold dict_loop, loop, get_iterator. cbn [dict_items map fst hd_error rounds is_valid it_usable it_at value fold_left act dict_spoils].
  rewrite Append.beqb_refl. cbn [negb andb next it_usable it_at]. eexists. reflexivity.
Qed.
(** The same for cross-reference sections, also when the entry is replaced by a new one for the same object. *)
Theorem C76_replace_current_refuted : forall place shuffle grow fuel e n l b,
  (forall x, e x = TDel x) \/ (forall x, e x = TAdd x) ->
  exists t', table_loop place shuffle grow (S fuel) (fun _ x => [Change (e x)]) {| t_items := n :: l; t_buckets := b |} = ([n], t', Undef).
Proof.
  intros place shuffle grow fuel e n l b H. unfold table_loop, loop, get_iterator. cbn [t_items hd_error rounds is_valid it_usable it_at value fold_left act].
  destruct H as [H|H]; rewrite H; cbn [table_spoils]; rewrite N.eqb_refl, ?orb_true_r; cbn [negb andb next it_usable it_at]; eexists; reflexivity.
Qed.
(** Adding an entry to a section whose hash table is full. *)
Theorem C76_rehash_refuted : forall place shuffle grow fuel new n l,
  ~ In new (n :: l) ->
  exists t', table_loop place shuffle grow (S fuel) (fun _ _ => [Change (TAdd new)]) {| t_items := n :: l; t_buckets := S (List.length l) |} = ([n], t', Undef).
Proof.
  intros place shuffle grow fuel new n l H. unfold table_loop, loop, get_iterator. cbn [t_items hd_error rounds is_valid it_usable it_at value fold_left act table_spoils].
  assert (Hr : rehashes new {| t_items := n :: l; t_buckets := S (List.length l) |} = true).
  { unfold rehashes. cbn [t_items t_buckets List.length]. destruct (existsb (N.eqb new) (n :: l)) eqn:E.
    - apply existsb_exists in E. destruct E as (x & Hx & Ex). apply N.eqb_eq in Ex. subst x. contradiction.
    - cbn [negb andb]. apply Nat.ltb_lt. lia. }
  rewrite Hr. cbn [orb negb andb next it_usable it_at]. eexists. reflexivity.
Qed.
(** Any change of a list of instructions in a loop over it. *)
Theorem C76_change_instructions_refuted : forall fuel e x l,
  exists l', list_loop (S fuel) (fun _ _ => [Change e]) (x :: l) = ([(0%nat, x)], l', Undef).
Proof.
  intros fuel e x l. unfold list_loop, loop, get_iterator.
  cbn [list_items List.length seq combine hd_error rounds is_valid it_usable it_at value fold_left act list_spoils negb andb next]. eexists. reflexivity.
Qed.
(** Releasing the collection inside the loop, for each kind of collection: the iterator does not keep it. *)
Theorem C76_release_refuted : forall C K E items eqb apply spoils fuel k (c : C),
  hd_error (items c) = Some k ->
  loop C K E items eqb apply spoils (S fuel) (fun _ _ => [Release]) c = ([k], c, Undef).
Proof.
  intros C K E items eqb apply spoils fuel k c H. unfold loop, get_iterator. rewrite H.
  cbn [rounds is_valid it_usable it_at value fold_left act next]. reflexivity.
Qed.
(** Reading or stepping at the end is not refused. *)
Theorem C76_end_refuted : forall C K items eqb (c : C),
  items c = [] -> value K (get_iterator C K items c) = Undef /\ next C K items eqb c (get_iterator C K items c) = Undef.
Proof. intros C K items eqb c H. unfold get_iterator, value, next. rewrite H. split; reflexivity. Qed.

(** Concrete cases. *)
Definition case_dict : smap unit := [(str "Count", tt); (str "Kids", tt); (str "Type", tt)].
Definition case_body (i : nat) (k : bytes) : list (action dict_edit) :=
  if bytes_eqb k (str "Count") then [Change (DDel (str "Kids")); Change (DPut (str "Parent"))] else [].
Example C76_case : careful_dict case_body /\ dictionary case_dict /\ never_removes case_body (str "Type")
  /\ fst (fst (dict_loop 10 case_body case_dict)) = [str "Count"; str "Parent"; str "Type"] /\ snd (dict_loop 10 case_body case_dict) = Ok true.
Proof.
  split; [|split; [|split; [|split]]].
  - intros i k a H. unfold case_body in H. destruct (bytes_eqb k (str "Count")) eqn:E; [|destruct H]. apply Append.beqb_eq in E. subst k.
    destruct H as [<- |[<- |[]]].
    + right. exists (str "Kids"). split; [reflexivity|]. split; [cbv; repeat constructor|discriminate].
    + left. exists (str "Parent"). split; [reflexivity|]. cbv; repeat constructor.
  - split; vm_compute; repeat constructor.
  - intros i x H. unfold case_body in H. destruct (bytes_eqb x (str "Count")); [|destruct H]. destruct H as [H|[H|[]]]; discriminate.
  - vm_compute. reflexivity.
  - vm_compute. reflexivity.
Qed.
Definition case_table : table := {| t_items := [7; 2; 5]; t_buckets := 11 |}.
Definition case_table_body (i : nat) (n : N) : list (action table_edit) := if n =? 7 then [Change (TDel 2); Change (TAdd 9)] else [].
Example C76_section_case : careful_table [9] case_table_body /\ NoDup (t_items case_table) /\ (List.length (t_items case_table ++ [9%N]) <= t_buckets case_table)%nat
  /\ leaves_alone case_table_body 5
  /\ fst (fst (table_loop (fun _ _ => 0%nat) (fun l => l) (fun b => b) 10 case_table_body case_table)) = [7; 5].
Proof.
  split; [|split; [|split; [|split]]].
  - intros i k a H. unfold case_table_body in H. destruct (k =? 7) eqn:E; [|destruct H]. apply N.eqb_eq in E. subst k. destruct H as [<- |[<- |[]]].
    + right. exists 2. split; [reflexivity|lia].
    + left. exists 9. split; [reflexivity|]. split; [left; reflexivity|lia].
  - cbv [t_items case_table]. repeat (constructor; [cbn; intuition discriminate|]). constructor.
  - cbn. lia.
  - intros i x. unfold case_table_body. destruct (x =? 7); cbn; intuition discriminate.
  - vm_compute. reflexivity.
Qed.

Print Assumptions C76_dictionary_partial.
Print Assumptions C76_dictionary_ends.
Print Assumptions C76_section_partial.
Print Assumptions C76_section_ends.
Print Assumptions C76_instructions_partial.
Print Assumptions C76_remove_current_refuted.
Print Assumptions C76_replace_current_refuted.
Print Assumptions C76_rehash_refuted.
Print Assumptions C76_change_instructions_refuted.
Print Assumptions C76_release_refuted.
Print Assumptions C76_end_refuted.

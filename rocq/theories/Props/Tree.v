(** C41: name and number trees. *)
From Coq Require Import List NArith ZArith Bool Lia String.
From Coq Require Import List.
From Verif.Model Require Import Base SMap Object Tree.
From Verif.Spec Require Import Containers Tree.
From Verif.Proof Require Import Tac Containers Tree.
Import ListNotations.
Local Open Scope N_scope.

(** Any number of earlier lookups. *)
Definition asked (fuel : nat) (t : tree bytes obj) (ks : list bytes) : tree bytes obj := fold_left (fun t k => fst (name_find fuel t k)) ks t.

Lemma asked_ready : forall fuel ks t es, ready t es -> Forall all_bytes ks -> asked fuel t ks = t.
Proof.
  intros fuel ks. induction ks as [|k ks IH]; intros t es Hr Hk; [reflexivity|]. apply Forall_cons_iff in Hk. destruct Hk as [Hk1 Hk2].
  unfold asked. cbn [fold_left]. rewrite (proj1 (ready_find fuel t es k Hr Hk1)). cbn [fst]. apply (IH t es Hr Hk2).
Qed.

(** In a name tree of any shape and depth every key is found with its value, whichever keys were looked up before; other keys are
    reported as missing. *)
Theorem C41_lookup : forall h root es, name_entries h root es -> NoDup (map fst es) ->
  exists F, forall fuel, (F <= fuel)%nat -> forall before k, Forall all_bytes before -> all_bytes k ->
    let t := asked fuel (open_tree h root) before in
    (forall v, In (k, v) es -> snd (name_find fuel t k) = Ok v /\ snd (name_contains fuel t k) = Ok true) /\
    (~ In k (map fst es) -> snd (name_find fuel t k) = Throw EGeneral /\ snd (name_contains fuel t k) = Ok false).
Proof.
  intros h root es H Hn. destruct (opened h root es H) as [F HF]. exists F. intros fuel Hf before k Hb Hk.
  destruct (HF fuel Hf) as (t0 & E & Hr & _).
  assert (Hfirst : forall k, all_bytes k -> name_find fuel (open_tree h root) k = name_find fuel t0 k /\
                                         name_contains fuel (open_tree h root) k = name_contains fuel t0 k).
  { intros k' _. unfold name_find, name_contains, find, contains. rewrite E, (ready_init fuel t0 es Hr). auto. }
  cbv zeta.
  assert (Hans : name_find fuel (asked fuel (open_tree h root) before) k = name_find fuel t0 k /\
                 name_contains fuel (asked fuel (open_tree h root) before) k = name_contains fuel t0 k).
  { destruct before as [|b before]; [apply Hfirst; exact Hk|]. apply Forall_cons_iff in Hb. destruct Hb as [Hb1 Hb2].
    unfold asked. cbn [fold_left]. rewrite (proj1 (Hfirst b Hb1)), (proj1 (ready_find fuel t0 es b Hr Hb1)). cbn [fst].
    change (fold_left (fun t k => fst (name_find fuel t k)) before t0) with (asked fuel t0 before). rewrite (asked_ready fuel before t0 es Hr Hb2). auto. }
  destruct Hans as [-> ->]. destruct (ready_find fuel t0 es k Hr Hk) as [-> ->]. cbn [snd]. split.
  - intros v Hin. rewrite (first_nodup es k v Hn Hin). auto.
  - intros Hin. apply first_none in Hin. rewrite Hin. auto.
Qed.

(** The first insertion into a tree without kids and limits, such as a new one: the new key and the old ones are found with their values,
    in this tree object and in one opened on the changed dictionary.  Missing from the full claim, and refuted below: a second
    insertion, trees with kids, replacing a value. *)
Theorem C41_first_insert_partial : forall h root es k v, name_entries h root es -> NoDup (map fst es) ->
  t_kids root = None -> t_limits root = false -> all_bytes k -> ~ In k (map fst es) ->
  exists F, forall fuel, (F <= fuel)%nat -> exists t', name_insert fuel (open_tree h root) k v = (t', Ok tt) /\
    forall t, t = t' \/ t = open_tree (t_heap t') (t_root t') -> forall k2 v2, all_bytes k2 ->
      (In (k2, v2) ((k, v) :: es) -> snd (name_find fuel t k2) = Ok v2) /\
      (~ In k2 (map fst ((k, v) :: es)) -> snd (name_contains fuel t k2) = Ok false).
Proof.
  intros h root es k v H Hn Hkids Hlim Hb Hnew. destruct (opened h root es H) as [F HF].
  exists (S (S F)). intros fuel Hf. destruct (HF fuel ltac:(lia)) as (t0 & E & Hr & Eroot & Eheap).
  pose (m := om_insert buffer_ltb k v (t_map t0)).
  assert (Hm : agrees m (first ((k, v) :: es))).
  { eapply agrees_ext; [apply (agrees_keep _ _ k v (proj2 Hr) Hb)|]. intros k2 _. unfold either. cbn [first].
    destruct (beq k2 k) eqn:Eb; [|destruct (first es k2); reflexivity]. apply beq_true in Eb. subst k2. apply first_none in Hnew. rewrite Hnew. reflexivity. }
  assert (Hne : exists a m', m = a :: m').
  { destruct m as [|a m'] eqn:Em; [|eauto]. exfalso. destruct Hm as (_ & _ & Hm). specialize (Hm k Hb). cbn [sm_find first] in Hm.
    rewrite (proj2 (beq_true k k) eq_refl) in Hm. discriminate. }
  assert (Hkeys : Forall (fun e => all_bytes (fst e)) m) by (destruct Hm as (_ & X & _); exact X).
  pose (root' := with_values false (with_limits (t_root t0)) (flatten name_of_key m)).
  assert (Hent : name_entries h root' m).
  { apply (te_values _ _ _ _ _ (flatten name_of_key m)); [unfold root'; cbn; rewrite Eroot; exact Hkids|reflexivity|apply flatten_paired; exact Hkeys]. }
  assert (Hn2 : NoDup (map fst ((k, v) :: es))) by (cbn [map fst]; constructor; assumption).
  destruct (pairs_agree (flatten name_of_key m) m (flatten_paired m Hkeys) [] fm_empty agrees_empty) as (m2 & Em2 & Hm2).
  assert (Hm2' : agrees m2 (first ((k, v) :: es))).
  { eapply agrees_ext; [exact Hm2|]. intros k2 Hb2. unfold either, fm_empty. apply (agrees_first _ _ Hm k2 Hb2). }
  pose (t' := {| t_root := root'; t_map := m2; t_init := true; t_heap := h |}).
  assert (Hrest : name_insert fuel (open_tree h root) k v = (t', Ok tt)).
  { unfold name_insert, insert. rewrite E. rewrite Eroot, Eheap. fold m. unfold rebuild, initialize at 1. cbn [t_init]. rewrite (proj1 Hr).
    unfold remove_all_childs. cbn [t_root t_heap t_map]. rewrite Hkids. cbn [t_root t_map].
    destruct Hne as (a & m' & Em). rewrite Em. destruct a as [ka va]. cbn [flatten flat_map app fst snd]. cbn [negb andb].
    assert (Hlim2 : t_limits (match values false root with Some _ => without_values false root | None => root end) = false).
    { destruct (values false root); [unfold without_values; cbn [t_limits]|]; exact Hlim. }
    rewrite Hlim2.
    change (name_of_key ka :: va :: flat_map (fun e : bytes * obj => [name_of_key (fst e); snd e]) m') with (flatten name_of_key ((ka, va) :: m')).
    rewrite <- Em.
    replace (with_values false (with_limits (match values false root with Some _ => without_values false root | None => root end)) (flatten name_of_key m))
      with root' by (unfold root'; rewrite Eroot; destruct (values false root); reflexivity).
    unfold initialize. cbn [t_init t_root t_heap t_map]. destruct fuel as [|fuel]; [lia|]. cbn [all_keys values].
    replace (t_kids root') with (@None (list N)) by (unfold root'; cbn; rewrite Eroot; congruence). cbn [rbind].
    replace (t_names root') with (Some (flatten name_of_key m)) by reflexivity. rewrite Em2. reflexivity. }
  exists t'. split; [exact Hrest|]. intros t Ht k2 v2 Hb2.
  assert (Hfind : name_find fuel t k2 = name_find fuel t' k2 /\ name_contains fuel t k2 = name_contains fuel t' k2).
  { destruct Ht as [->| ->]; [auto|]. cbn [t' t_heap t_root]. unfold name_find, name_contains, find, contains, initialize. cbn [open_tree t_init t_root t_heap t_map].
    destruct fuel as [|fuel]; [lia|]. cbn [all_keys values].
    replace (t_kids root') with (@None (list N)) by (unfold root'; cbn; rewrite Eroot; congruence). cbn [rbind].
    replace (t_names root') with (Some (flatten name_of_key m)) by reflexivity. rewrite Em2. auto. }
  destruct Hfind as [-> ->].
  assert (Hr' : ready t' ((k, v) :: es)) by (split; [reflexivity|exact Hm2']).
  destruct (ready_find fuel t' _ k2 Hr' Hb2) as [-> ->]. cbn [snd]. split.
  - intros Hin. rewrite (first_nodup _ _ _ Hn2 Hin). reflexivity.
  - intros Hin. apply first_none in Hin. rewrite Hin. reflexivity.
Qed.

Definition no_nodes : theap obj := fun _ => None.
Definition new_root : tnode obj := TNode None false None None.
Example C41_case_new : name_entries no_nodes new_root [] /\ t_kids new_root = None /\ t_limits new_root = false.
Proof. split; [apply te_empty; reflexivity|]. auto. Qed.

(** A tree with two levels of inner nodes meets the hypotheses of the lookup theorem. *)
Definition three_levels : theap obj := fun n =>
  if n =? 2 then Some (TNode (Some [3; 4]) true None None)
  else if n =? 3 then Some (TNode None true (Some [OLit (str "a"); OInt 1; OHex (str "b"); OInt 2]) None)
  else if n =? 4 then Some (TNode None true (Some [OLit (str "k"); OInt 3]) None)
  else if n =? 5 then Some (TNode None true (Some [OLit (str "z"); OInt 4]) None)
  else None.
Definition three_root : tnode obj := TNode (Some [2; 5]) false None None.
Example C41_case : name_entries three_levels three_root [(str "a", OInt 1); (str "b", OInt 2); (str "k", OInt 3); (str "z", OInt 4)] /\
  snd (name_find 4 (open_tree three_levels three_root) (str "k")) = Ok (OInt 3).
Proof.
  split; [|vm_compute; reflexivity].
  assert (K : forall o k, (o = OLit k \/ o = OHex k) -> forallb (fun b => b <? 256) k = true -> string_key o k).
  { intros o k Ho Hb. split; [exact Ho|]. apply Forall_forall. intros b Hin. rewrite forallb_forall in Hb. specialize (Hb b Hin). unfold is_byte. lia. }
  assert (L3 : entries bytes string_key t_names three_levels 3 [(str "a", OInt 1); (str "b", OInt 2)]).
  { eapply en_leaf; [reflexivity|reflexivity|reflexivity|reflexivity|]. constructor; [apply K; [left|]; reflexivity|]. constructor; [apply K; [right|]; reflexivity|constructor]. }
  assert (L4 : entries bytes string_key t_names three_levels 4 [(str "k", OInt 3)]).
  { eapply en_leaf; [reflexivity|reflexivity|reflexivity|reflexivity|]. constructor; [apply K; [left|]; reflexivity|constructor]. }
  assert (L5 : entries bytes string_key t_names three_levels 5 [(str "z", OInt 4)]).
  { eapply en_leaf; [reflexivity|reflexivity|reflexivity|reflexivity|]. constructor; [apply K; [left|]; reflexivity|constructor]. }
  eapply te_kids; [reflexivity|reflexivity|].
  change [(str "a", OInt 1); (str "b", OInt 2); (str "k", OInt 3); (str "z", OInt 4)]
    with ([(str "a", OInt 1); (str "b", OInt 2); (str "k", OInt 3)] ++ ([(str "z", OInt 4)] ++ [])).
  constructor; [|constructor; [exact L5|constructor]].
  eapply en_inner; [reflexivity|reflexivity|reflexivity|reflexivity|reflexivity|].
  change [(str "a", OInt 1); (str "b", OInt 2); (str "k", OInt 3)] with ([(str "a", OInt 1); (str "b", OInt 2)] ++ ([(str "k", OInt 3)] ++ [])).
  constructor; [exact L3|]. constructor; [exact L4|constructor].
Qed.

(** Refuted: the second insertion fails, and the dictionary has lost all its entries, including the one inserted first. *)
Theorem C41_second_insert_refuted : forall fuel, (2 <= fuel)%nat -> exists t1 t2,
  name_insert fuel (open_tree no_nodes new_root) (str "a") (OInt 1) = (t1, Ok tt) /\
  name_insert fuel t1 (str "b") (OInt 2) = (t2, Throw EDuplicateKey) /\
  (forall k, snd (name_contains fuel (open_tree (t_heap t2) (t_root t2)) k) = Ok false).
Proof.
  intros fuel Hf. destruct fuel as [|[|f]]; [lia|lia|]. do 2 eexists. split; [vm_compute; reflexivity|].
  split; [vm_compute; reflexivity|]. intros k. reflexivity.
Qed.

(** Refuted: inserting into a tree with kids fails, and from then on every lookup fails. *)
Theorem C41_insert_kids_refuted : forall fuel, (3 <= fuel)%nat -> exists t1,
  snd (name_contains fuel (open_tree three_levels three_root) (str "z")) = Ok true /\
  name_insert fuel (open_tree three_levels three_root) (str "c") (OInt 5) = (t1, Throw EConversion) /\
  (forall k, snd (name_contains fuel t1 k) = Throw EConversion) /\
  (forall k, snd (name_contains fuel (open_tree (t_heap t1) (t_root t1)) k) = Throw EConversion).
Proof.
  intros fuel Hf. destruct fuel as [|[|[|f]]]; [lia|lia|lia|]. eexists. split; [vm_compute; reflexivity|].
  split; [vm_compute; reflexivity|]. split; intros k; reflexivity.
Qed.

(** Refuted: inserting a key that is there keeps the old value and reports success. *)
Definition one_entry : tnode obj := TNode None false (Some [OLit (str "a"); OInt 1]) None.
Theorem C41_replace_refuted : forall fuel, (2 <= fuel)%nat -> exists t1,
  name_insert fuel (open_tree no_nodes one_entry) (str "a") (OInt 2) = (t1, Ok tt) /\
  snd (name_find fuel t1 (str "a")) = Ok (OInt 1).
Proof. intros fuel Hf. destruct fuel as [|[|f]]; [lia|lia|]. eexists. split; [vm_compute; reflexivity|vm_compute; reflexivity]. Qed.

(** A key that is not a string makes every lookup fail, whatever the tree has besides. *)
Theorem C41_wrong_key : forall h root before k v after fuel n,
  t_kids root = None -> t_names root = Some (before ++ k :: v :: after) -> List.length before = (2 * n)%nat ->
  (forall s, k <> OLit s /\ k <> OHex s) ->
  forall q, snd (name_contains (S fuel) (open_tree h root) q) = Throw EConversion /\ snd (name_find (S fuel) (open_tree h root) q) = Throw EConversion.
Proof.
  intros h root before k v after fuel n Hk Hn Hl Hs q.
  assert (Ek : name_as_key k = None) by (destruct k; try reflexivity; exfalso; [eapply (fun s => proj1 (Hs s)) | eapply (fun s => proj2 (Hs s))]; reflexivity).
  assert (G : forall n l m, List.length l = (2 * n)%nat -> insert_pairs buffer_ltb name_as_key m (l ++ k :: v :: after) = Throw EConversion).
  { clear - Ek. induction n as [|n IH]; intros l m Hl; [destruct l; [cbn [app insert_pairs]; rewrite Ek; reflexivity|discriminate Hl]|].
    destruct l as [|a [|b l]]; cbn [List.length] in Hl; try lia. cbn [app insert_pairs]. destruct (name_as_key a); [|reflexivity]. apply IH. lia. }
  assert (A : all_keys buffer_ltb name_as_key false (S fuel) h KRoot root = Throw EConversion).
  { cbn [all_keys]. rewrite Hk. unfold values. rewrite Hn. cbn [rbind]. apply (G n). exact Hl. }
  unfold name_contains, name_find, contains, find, initialize. cbn [open_tree t_init t_heap t_root]. rewrite A. split; reflexivity.
Qed.
Example C41_wrong_key_case : snd (name_contains 1 (open_tree no_nodes (TNode None false (Some [OLit (str "a"); OInt 1; OInt 2; OInt 3]) None)) (str "a")) = Throw EConversion.
Proof. reflexivity. Qed.

(** Refuted for number trees, and with them for page labels: no label is ever found, because keys are compared by their addresses
    and the key that is looked for is a new object. *)
Theorem C41_labels_refuted : forall h root l es fuel a z v, (2 <= fuel)%nat ->
  t_kids root = None -> t_nums root = Some l -> paired Z integer_key l es -> In (z, v) es ->
  Forall (fun o => fst o <> a) l ->
  snd (label_contains fuel (open_tree h root) a z) = Ok false /\ snd (label_find fuel (open_tree h root) a z) = Throw EGeneral.
Proof.
  intros h root l es fuel a z v Hf Hk Hv Hp _ Ha. destruct fuel as [|[|f]]; [lia|lia|].
  destruct (number_pairs l es a Hp Ha [] (Forall_nil _)) as (m & Em & Hm).
  assert (Hall : all_keys number_lt number_as_key true (S (S f)) h KRoot root = Ok m).
  { cbn [all_keys values]. rewrite Hk. cbn [rbind]. rewrite Hv. exact Em. }
  unfold label_contains, label_find, number_contains, number_find, contains, find, initialize. cbn [open_tree t_init t_heap t_root].
  rewrite Hall. cbn [t_map snd]. rewrite (om_find_absent m a z Hm). auto.
Qed.
Example C41_labels_case : exists l : list addressed, paired Z integer_key l [(0%Z, (2, ODict []))] /\ Forall (fun o => fst o <> 3) l.
Proof.
  exists [(1, OInt 0); (2, ODict [])]. split; [constructor; [reflexivity|constructor]|].
  repeat (apply Forall_cons; [cbn [fst]; discriminate|]). apply Forall_nil.
Qed.

(** Refuted: a number tree with kids as the specification of the format wants them cannot be read at all. *)
Theorem C41_number_kids_refuted : forall h root k ks l fuel a z, (2 <= fuel)%nat ->
  t_kids root = Some (k :: ks) -> h k = Some (TNode None true None (Some l)) ->
  snd (label_contains fuel (open_tree h root) a z) = Throw EGeneral.
Proof.
  intros h root k ks l fuel a z Hf Hk Hn. destruct fuel as [|[|f]]; [lia|lia|].
  unfold label_contains, number_contains, contains, initialize. cbn [open_tree t_init t_heap t_root].
  cbn [all_keys]. rewrite Hk. cbn [kids_keys]. unfold kid_at. rewrite Hn. reflexivity.
Qed.

Print Assumptions C41_lookup.
Print Assumptions C41_first_insert_partial.
Print Assumptions C41_second_insert_refuted.
Print Assumptions C41_insert_kids_refuted.
Print Assumptions C41_replace_refuted.
Print Assumptions C41_wrong_key.
Print Assumptions C41_labels_refuted.
Print Assumptions C41_number_kids_refuted.

(** Proofs about string destinations in appended documents. *)
From Coq Require Import List NArith ZArith Bool String Lia Sorted.
From Coq Require Import List.
From Verif.Model Require Import Base SMap Object Containers Tree StringDests.
From Verif.Spec Require Import Containers Tree StringDests.
From Verif.Proof Require Import Tac SMap Containers Tree Keys.
Import ListNotations.
Local Open Scope N_scope.

(** ** name trees *)
Lemma paired_bytes : forall l es, paired bytes string_key l es -> Forall (fun e => all_bytes (fst e)) es.
Proof. intros l es H. induction H as [|o k v l es [_ Hb] H IH]; constructor; [exact Hb|exact IH]. Qed.
Lemma entries_bytes : forall h,
  (forall k es, entries bytes string_key t_names h k es -> Forall (fun e => all_bytes (fst e)) es) /\
  (forall ks es, entries_all bytes string_key t_names h ks es -> Forall (fun e => all_bytes (fst e)) es).
Proof.
  intros h. apply en_mut.
  - intros k n l es _ _ _ _ Hp. now apply paired_bytes in Hp.
  - intros; assumption.
  - constructor.
  - intros k ks es es' _ H1 _ H2. now apply Forall_app.
Qed.
Lemma name_bytes : forall h root es, name_entries h root es -> Forall (fun e => all_bytes (fst e)) es.
Proof. intros h root es [l e _ _ Hp|ks e _ _ Ha|_ _]; [now apply paired_bytes in Hp|now apply entries_bytes in Ha|constructor]. Qed.

Lemma agrees_in : forall m es, agrees m (first es) -> NoDup (map fst es) -> Forall (fun e => all_bytes (fst e)) es ->
  (forall k v, In (k, v) m <-> In (k, v) es) /\ NoDup (map fst m).
Proof.
  intros m es Ha Hn Hb. pose proof Ha as (Hs & Hk & Hf). split.
  - intros k v. split; intros H.
    + assert (Hkb : all_bytes k) by (unfold sm_keys_ok in Hk; rewrite Forall_forall in Hk; exact (Hk _ H)).
      apply first_in. rewrite <- Hf by exact Hkb. now apply sm_find_in.
    + assert (Hkb : all_bytes k) by (rewrite Forall_forall in Hb; exact (Hb _ H)). apply sm_find_in; [assumption..|].
      rewrite Hf by exact Hkb. now apply first_nodup.
  - clear - Hs. induction Hs as [|a l Hs IH Hl]; cbn [map]; constructor; [|exact IH].
    intros Hin. apply in_map_iff in Hin. destruct Hin as (e & He & Hin). rewrite Forall_forall in Hl. specialize (Hl e Hin). rewrite He, ltb_irrefl in Hl. discriminate.
Qed.

Lemma flat_opened : forall f h root es, name_entries h root es -> t_kids root = None ->
  exists t, initialize buffer_ltb name_as_key false (S f) (open_tree h root) = (t, Ok tt) /\ ready t es /\ t_root t = root /\ t_heap t = h.
Proof.
  intros f h root es H Hk.
  assert (E : exists m, all_keys buffer_ltb name_as_key false (S f) h KRoot root = Ok m /\ agrees m (first es)).
  { destruct H as [l es _ Hv Hp|ks es Hk' _ _|_ Hv]; [|congruence|]; cbn [all_keys values]; rewrite Hk, Hv; cbn [rbind].
    - destruct (pairs_agree l es Hp [] fm_empty agrees_empty) as (m & Em & Hm). exists m. split; [exact Em|]. apply (agrees_ext _ _ _ Hm). reflexivity.
    - exists []. split; [reflexivity|apply agrees_empty]. }
  destruct E as (m & E & Hm). unfold initialize. cbn [open_tree t_init t_heap t_root]. rewrite E. eexists. split; [reflexivity|].
  split; [split; [reflexivity|exact Hm]|]. split; reflexivity.
Qed.

Lemma om_nonempty : forall k (v : obj) m, om_insert buffer_ltb k v m <> [].
Proof. intros k v [|[k' v'] m]; cbn [om_insert]; [discriminate|]. destruct (buffer_ltb k k'); [discriminate|]. destruct (buffer_ltb k' k); discriminate. Qed.
Lemma flatten_nonempty : forall m : list (bytes * obj), m <> [] -> exists a b, flatten name_of_key m = a :: b.
Proof. intros [|[k v] m] H; [congruence|]. cbn [flatten flat_map app]. eauto. Qed.

(** inserting into an opened tree *)
Lemma insert_ready : forall fuel t es k v, ready t es -> name_insert fuel t k v =
  rebuild buffer_ltb name_as_key name_of_key false fuel {| t_root := t_root t; t_map := om_insert buffer_ltb k v (t_map t); t_init := true; t_heap := t_heap t |}.
Proof. intros fuel t es k v H. unfold name_insert, insert. rewrite (ready_init fuel t es H). destruct H as [-> _]. reflexivity. Qed.

Lemma insert_flat : forall f t es k v, ready t es -> NoDup (map fst es) -> Forall (fun e => all_bytes (fst e)) es ->
  t_kids (t_root t) = None -> t_limits (t_root t) = false -> all_bytes k -> ~ In k (map fst es) ->
  exists t' m, name_insert (S (S f)) t k v = (t', Ok tt) /\ t_heap t' = t_heap t /\ t_kids (t_root t') = None /\ t_limits (t_root t') = true /\
    name_entries (t_heap t) (t_root t') m /\ NoDup (map fst m) /\ forall k2 v2, In (k2, v2) m <-> In (k2, v2) ((k, v) :: es).
Proof.
  intros f t es k v Hr Hn Hbs Hkids Hlim Hb Hnew. rewrite (insert_ready _ _ _ _ _ Hr). pose (m := om_insert buffer_ltb k v (t_map t)).
  assert (Hm : agrees m (first ((k, v) :: es))).
  { eapply agrees_ext; [apply (agrees_keep _ _ k v (proj2 Hr) Hb)|]. intros k2 _. unfold either. cbn [first].
    destruct (beq k2 k) eqn:Eb; [|destruct (first es k2); reflexivity]. apply beq_true in Eb. subst k2. apply first_none in Hnew. rewrite Hnew. reflexivity. }
  assert (Hkeys : Forall (fun e => all_bytes (fst e)) m) by (destruct Hm as (_ & X & _); exact X).
  assert (Hn2 : NoDup (map fst ((k, v) :: es))) by (cbn [map fst]; constructor; assumption).
  destruct (agrees_in m _ Hm Hn2) as [Hin Hnd]; [constructor; assumption|].
  pose (root' := with_values false (with_limits (t_root t)) (flatten name_of_key m)).
  assert (Hent : name_entries (t_heap t) root' m).
  { apply (te_values _ _ _ _ _ (flatten name_of_key m)); [unfold root'; cbn; exact Hkids|reflexivity|apply flatten_paired; exact Hkeys]. }
  destruct (pairs_agree (flatten name_of_key m) m (flatten_paired m Hkeys) [] fm_empty agrees_empty) as (m2 & Em2 & _).
  exists {| t_root := root'; t_map := m2; t_init := true; t_heap := t_heap t |}, m.
  split; [|split; [reflexivity|split; [unfold root'; cbn; exact Hkids|split; [reflexivity|split; [exact Hent|split; [exact Hnd|exact Hin]]]]]].
  fold m. unfold rebuild, initialize at 1. cbn [t_init]. unfold remove_all_childs. cbn [t_root t_heap t_map]. rewrite Hkids.
  destruct (flatten_nonempty m (om_nonempty k v (t_map t))) as (a & b & Ef). cbn [t_root t_map]. rewrite Ef. cbn [negb andb].
  assert (Hlim2 : t_limits (match values false (t_root t) with Some _ => without_values false (t_root t) | None => t_root t end) = false).
  { destruct (values false (t_root t)); [unfold without_values; cbn [t_limits]|]; exact Hlim. }
  rewrite Hlim2. rewrite <- Ef.
  replace (with_values false (with_limits (match values false (t_root t) with Some _ => without_values false (t_root t) | None => t_root t end)) (flatten name_of_key m))
    with root' by (unfold root'; destruct (values false (t_root t)); reflexivity).
  unfold initialize. cbn [t_init t_root t_heap t_map all_keys values].
  replace (t_kids root') with (@None (list N)) by (unfold root'; cbn; congruence). cbn [rbind].
  replace (t_names root') with (Some (flatten name_of_key m)) by reflexivity. rewrite Em2. reflexivity.
Qed.

Lemma insert_limits : forall fuel t es k v, ready t es -> t_kids (t_root t) = None -> t_limits (t_root t) = true ->
  exists t', name_insert fuel t k v = (t', Throw EDuplicateKey) /\ t_heap t' = t_heap t /\ t_kids (t_root t') = None /\ t_names (t_root t') = None.
Proof.
  intros fuel t es k v Hr Hkids Hlim. rewrite (insert_ready _ _ _ _ _ Hr). unfold rebuild, initialize at 1. cbn [t_init]. unfold remove_all_childs.
  cbn [t_root t_heap t_map]. rewrite Hkids. destruct (flatten_nonempty _ (om_nonempty k v (t_map t))) as (a & b & Ef). cbn [t_root t_map]. rewrite Ef.
  cbn [negb andb].
  assert (Hlim2 : t_limits (match values false (t_root t) with Some _ => without_values false (t_root t) | None => t_root t end) = true).
  { destruct (values false (t_root t)); [unfold without_values; cbn [t_limits]|]; exact Hlim. }
  rewrite Hlim2. eexists. split; [reflexivity|]. cbn [t_heap t_root]. split; [reflexivity|]. cbn [values].
  destruct (t_names (t_root t)) eqn:E; [split; [exact Hkids|reflexivity]|split; [exact Hkids|exact E]].
Qed.

(** inserting into any tree whose root has kids *)
Lemma kids_drop : forall f ks (h h' : theap obj) r, release_kids (release_node f) h ks = (h', r) -> forall k, h k = None -> h' k = None.
Proof.
  assert (G : forall f (h : theap obj) k h' r, release_node f h k = (h', r) -> forall j, h j = None -> h' j = None).
  { induction f as [|f IH]; intros h k h' r H j Hj; cbn [release_node] in H; [apply pair_equal_spec in H as [<- _]; exact Hj|].
    assert (Gk : forall ks (h h' : theap obj) r, release_kids (release_node f) h ks = (h', r) -> forall j, h j = None -> h' j = None).
    { induction ks as [|c ks IHk]; intros h1 h1' r1 H1 j1 Hj1; cbn [release_kids] in H1; [apply pair_equal_spec in H1 as [<- _]; exact Hj1|].
      destruct (release_node f h1 c) as [h2 r2] eqn:E. specialize (IH _ _ _ _ E j1 Hj1).
      destruct r2 as [[]|e| |]; try (apply pair_equal_spec in H1 as [<- _]; exact IH). exact (IHk _ _ _ H1 j1 IH). }
    assert (Gd : forall hh : theap obj, hh j = None -> drop hh k j = None) by (intros hh X; unfold drop; destruct (j =? k); [reflexivity|exact X]).
    destruct (kid_at h k) as [[[] n]|e| |]; try (apply pair_equal_spec in H as [<- _]; exact Hj).
    - destruct (t_kids n) as [ks|]; [|apply pair_equal_spec in H as [<- _]; exact Hj].
      destruct (release_kids (release_node f) h ks) as [h2 r2] eqn:E. specialize (Gk _ _ _ _ E j Hj).
      destruct r2 as [[]|e| |]; apply pair_equal_spec in H as [<- _]; auto.
    - apply pair_equal_spec in H as [<- _]. auto. }
  intros f ks. induction ks as [|c ks IHk]; intros h h' r H j Hj; cbn [release_kids] in H; [apply pair_equal_spec in H as [<- _]; exact Hj|].
  destruct (release_node f h c) as [h2 r2] eqn:E. specialize (G _ _ _ _ _ E j Hj).
  destruct r2 as [[]|e| |]; try (apply pair_equal_spec in H as [<- _]; exact G). exact (IHk _ _ _ H j G).
Qed.
Lemma release_first : forall f h c es h', entries bytes string_key t_names h c es -> release_node f h c = (h', Ok tt) -> h' c = None.
Proof.
  intros f h c es h' H E. destruct f as [|f]; [discriminate|]. cbn [release_node] in E.
  assert (K : exists ty n, kid_at h c = Ok (ty, n) /\ ty <> KRoot).
  { destruct H as [k n l es Hh Hk Hl Hv _|k n ks es Hh Hk Hl Hn _ _]; unfold kid_at; rewrite Hh; unfold create; rewrite Hk, Hl.
    - exists KLeaf, n. rewrite Hv. split; [reflexivity|discriminate].
    - exists KIntermediate, n. rewrite Hn. split; [reflexivity|discriminate]. }
  destruct K as (ty & n & Ek & Hty). rewrite Ek in E.
  assert (Gd : forall hh : theap obj, drop hh c c = None) by (intros hh; unfold drop; now rewrite N.eqb_refl).
  destruct ty; [congruence| |].
  - destruct (t_kids n) as [ks|]; [|discriminate]. destruct (release_kids (release_node f) h ks) as [h2 [[]|e| |]]; try discriminate.
    apply pair_equal_spec in E as [<- _]. apply Gd.
  - apply pair_equal_spec in E as [<- _]. apply Gd.
Qed.
Lemma insert_kids : forall fuel h root es c cs t k v, name_entries h root es -> t_kids root = Some (c :: cs) -> t_root t = root -> t_heap t = h ->
  t_init t = true -> snd (name_insert fuel t k v) <> Ok tt.
Proof.
  intros fuel h root es c cs t k v H Hk Er Eh Hi. unfold name_insert, insert, initialize at 1. rewrite Hi. unfold rebuild, initialize at 1. cbn [t_init].
  rewrite Hi. unfold remove_all_childs. cbn [t_root t_heap t_map]. rewrite Er, Eh, Hk.
  destruct H as [l es Hk' _ _|ks es Hk' Hv Ha|Hk' _]; [congruence| |congruence].
  assert (ks = c :: cs) by congruence. subst ks. inversion Ha as [|? ? es1 es2 H1 H2]; subst. cbn [release_kids].
  destruct (release_node fuel (t_heap t) c) as [h2 r2] eqn:E2. destruct r2 as [[]|e| |]; try (cbn [snd]; discriminate).
  pose proof (release_first _ _ _ _ _ H1 E2) as Hc.
  destruct (release_kids (release_node fuel) h2 cs) as [h3 r3] eqn:E3. pose proof (kids_drop _ _ _ _ _ E3 c Hc) as Hc3.
  destruct r3 as [[]|e| |]; try (cbn [snd]; discriminate). cbn [t_root t_map].
  destruct (flatten_nonempty _ (om_nonempty k v (t_map t))) as (a & b & Ef). rewrite Ef. cbn [negb andb].
  cbn [values]. rewrite Hv. destruct (t_limits (t_root t)); [cbn [snd]; discriminate|].
  unfold initialize. cbn [t_init t_root t_heap]. destruct fuel as [|fuel]; [cbn; discriminate|]. cbn [all_keys].
  change (t_kids (with_values false (with_limits (t_root t)) (a :: b))) with (t_kids (t_root t)). rewrite Hk. cbn [kids_keys]. unfold kid_at. rewrite Hc3.
  cbn. discriminate.
Qed.

Lemma insert_ok_limits : forall fuel t es k v t', ready t es -> name_insert fuel t k v = (t', Ok tt) -> t_limits (t_root t') = true.
Proof.
  intros fuel t es k v t' Hr. rewrite (insert_ready _ _ _ _ _ Hr). unfold rebuild, initialize at 1. cbn [t_init]. destruct (remove_all_childs _ _ _) as [t1 r1] eqn:E1.
  assert (Hm : r1 = Ok tt -> t_map t1 = om_insert buffer_ltb k v (t_map t)).
  { intros ->. unfold remove_all_childs in E1. cbn [t_root t_heap t_map t_init] in E1.
    destruct (match t_kids (t_root t) with Some ks => release_kids (release_node fuel) (t_heap t) ks | None => (t_heap t, Ok tt) end) as [h r].
    destruct r; apply pair_equal_spec in E1 as [<- _]; reflexivity. }
  destruct r1 as [[]|e| |]; try discriminate. rewrite (Hm eq_refl). destruct (flatten_nonempty _ (om_nonempty k v (t_map t))) as (a & b & ->).
  cbn [negb andb]. destruct (t_limits (t_root t1)); [discriminate|]. unfold initialize. cbn [t_init t_root t_heap t_map].
  destruct (all_keys _ _ _ _ _ _ _) as [m| | |]; try discriminate. intros H. apply pair_equal_spec in H as [<- _]. reflexivity.
Qed.

(** ** destinations *)
Section Merge.
Variable objects : N -> option obj.
Variable alloc : list (N * obj) -> res N.
Local Notation asks o p := (rbind (destination_page (snd (resolve objects o))) (on_page objects p)).

Lemma known : forall kind, In kind shows -> known_kind kind = true.
Proof. intros kind H. unfold known_kind. apply existsb_exists. exists kind. split; [exact H|]. now apply beq_true. Qed.
Lemma asks_array : forall p kind more x d q, leads_to p kind more x -> objects p = Some (ODict d) ->
  rbind (destination_page x) (on_page objects q) = Ok (p =? q).
Proof.
  intros p kind more x d q (Hk & ->) Hp. cbn [destination_page array_page]. rewrite (known kind Hk). cbn [rbind on_page]. rewrite Hp. reflexivity.
Qed.
Lemma sorted_around : forall before k (x : obj) after, sorted_keys (before ++ (k, x) :: after) ->
  (forall e, In e before -> buffer_ltb (fst e) k = true) /\ (forall e, In e after -> buffer_ltb k (fst e) = true).
Proof.
  intros before k x after. induction before as [|e before IH]; intros H.
  - apply StronglySorted_inv in H as [_ H]. split; [intros e []|]. rewrite Forall_forall in H. exact H.
  - cbn [app] in H. apply StronglySorted_inv in H as [H1 H2]. destruct (IH H1) as [I1 I2]. split; [|exact I2].
    intros e' [<-|He]; [|now apply I1]. rewrite Forall_forall in H2. apply (H2 (k, x)). apply in_or_app. right. now left.
Qed.
Lemma sorted_found : forall before k (x : obj) after, sorted_keys (before ++ (k, x) :: after) -> sm_find k (before ++ (k, x) :: after) = Some x.
Proof.
  intros before k x after H. apply sorted_around in H as [H _]. rewrite sm_find_skip by exact H. cbn [sm_find]. rewrite ltb_irrefl. reflexivity.
Qed.
Lemma asks_destination : forall p x d q, destination p x -> objects p = Some (ODict d) -> rbind (destination_page x) (on_page objects q) = Ok (p =? q).
Proof.
  intros p x d q Hx Hp. destruct Hx as [kind more x Hl|kind more x before after Hl Hs]; [now apply (asks_array p kind more x d q)|].
  rewrite <- (asks_array p kind more x d q Hl Hp). destruct Hl as (_ & ->). unfold destination_page. rewrite (sorted_found _ _ _ _ Hs). reflexivity.
Qed.
Lemma page_moved : forall p new x, destination p x -> moved new x (fix_page new x).
Proof.
  intros p new x [kind more x' (_ & ->)|kind more x' before after (_ & ->) Hs]; [constructor|]. apply sorted_around in Hs as [Hb Ha].
  assert (Hsame : forall l : list (bytes * obj), (forall e, In e l -> beq (fst e) (str "D") = false) ->
    map (fun e => if beq (fst e) (str "D") then (fst e, match snd e with OArr l => OArr (fix_array new l) | o => o end) else e) l = l).
  { induction l as [|e l IH]; intros H; [reflexivity|]. cbn [map]. rewrite (H e (or_introl eq_refl)). f_equal. apply IH. intros e' He. apply H. now right. }
  assert (Hne : forall k, buffer_ltb k (str "D") = true \/ buffer_ltb (str "D") k = true -> beq k (str "D") = false).
  { intros k H. destruct (beq k (str "D")) eqn:E; [|reflexivity]. apply beq_true in E. subst k. rewrite ltb_irrefl in H. destruct H as [H|H]; discriminate H. }
  unfold fix_page. rewrite map_app. cbn [map]. rewrite (Hsame before) by (intros e He; apply Hne; left; now apply Hb).
  rewrite (Hsame after) by (intros e He; apply Hne; right; now apply Ha).
  change (beq (fst (str "D", OArr (ORef p 0 :: OName kind :: more))) (str "D")) with true. cbn [fst snd fix_array]. apply mv_dictionary. constructor.
Qed.
Lemma asks_indirect : forall o p q, indirect_destination objects o p -> asks o q = Ok (p =? q).
Proof.
  intros o p q (n & x & d & -> & Hn & Hl & Hp). cbn [resolve]. rewrite Hn. cbn [snd]. now apply (asks_destination p x d q).
Qed.
Lemma asks_direct : forall o p q, direct_destination objects o p -> asks o q = Ok (p =? q) /\ fst (resolve objects o) = false.
Proof.
  intros o p q (d & Hl & Hp). assert (E : resolve objects o = (false, o)) by (destruct Hl as [? ? ? (_ & ->)|]; reflexivity).
  rewrite E. split; [|reflexivity]. now apply (asks_destination p _ d q).
Qed.

Lemma contains_init : forall fuel t0 k t b, name_contains fuel t0 k = (t, Ok b) -> initialize buffer_ltb name_as_key false fuel t0 = (t, Ok tt).
Proof.
  intros fuel t0 k t b H. unfold name_contains, contains in H. destruct (initialize _ _ _ fuel t0) as [t1 [[]|e| |]]; try discriminate.
  apply pair_equal_spec in H as [-> _]. reflexivity.
Qed.
Lemma init_parts : forall fuel t0 t, initialize buffer_ltb name_as_key false fuel t0 = (t, Ok tt) -> t_root t = t_root t0 /\ t_heap t = t_heap t0 /\ t_init t = true.
Proof.
  intros fuel t0 t H. unfold initialize in H. destruct (t_init t0) eqn:E; [apply pair_equal_spec in H as [<- _]; auto|].
  destruct (all_keys _ _ _ _ _ _ _) as [m| | |]; try discriminate. apply pair_equal_spec in H as [<- _]. auto.
Qed.
Lemma insert_init : forall fuel t k v t', t_init t = true -> name_insert fuel t k v = (t', Ok tt) -> t_limits (t_root t') = true /\ t_limits (t_root t) = false.
Proof.
  intros fuel t k v t' Hi. unfold name_insert, insert, initialize at 1. rewrite Hi. unfold rebuild, initialize at 1. cbn [t_init]. rewrite Hi. cbv iota.
  destruct (remove_all_childs _ _ _) as [t1 r1] eqn:E1.
  assert (Hm : r1 = Ok tt -> t_map t1 = om_insert buffer_ltb k v (t_map t) /\ t_limits (t_root t1) = t_limits (t_root t)).
  { intros ->. unfold remove_all_childs in E1. cbn [t_root t_heap t_map t_init] in E1.
    destruct (match t_kids (t_root t) with Some ks => release_kids (release_node fuel) (t_heap t) ks | None => (t_heap t, Ok tt) end) as [h r].
    destruct r; apply pair_equal_spec in E1 as [<- _]; [|split; reflexivity..]. cbn [t_map t_root]. split; [reflexivity|]. destruct (values false (t_root t)); reflexivity. }
  destruct r1 as [[]|e| |]; try discriminate. destruct (Hm eq_refl) as [-> Hl]. destruct (flatten_nonempty _ (om_nonempty k v (t_map t))) as (a & b & ->).
  cbn [negb andb]. rewrite Hl. destruct (t_limits (t_root t)); [discriminate|]. unfold initialize. cbn [t_init t_root t_heap t_map].
  destruct (all_keys _ _ _ _ _ _ _) as [m| | |]; try discriminate. intros H. apply pair_equal_spec in H as [<- _]. split; reflexivity.
Qed.

(** nothing is appended where the destination is direct, or the tree has kids *)
Lemma append_direct : forall fuel new k o tg, fst (resolve objects o) = false -> snd (append_string objects alloc fuel new k o tg) <> Ok tt.
Proof.
  intros fuel new k o tg H. unfold append_string. destruct (name_contains _ _ k) as [t [[|]|e| |]]; cbn [snd]; try discriminate.
  destruct (resolve objects o) as [i x]. cbn [fst] in H. subst i. discriminate.
Qed.
Lemma append_kids : forall fuel new k o tg ds, string_destinations tg ds -> has_kids tg -> snd (append_string objects alloc fuel new k o tg) <> Ok tt.
Proof.
  intros fuel new k o tg ds Hd (root & c & cs & Ht & Hk). unfold string_destinations in Hd. rewrite Ht in Hd. unfold append_string. rewrite Ht.
  destruct (name_contains fuel (open_tree (d_nodes tg) root) k) as [t [[|]|e| |]] eqn:E; cbn [snd]; try discriminate.
  apply contains_init in E. apply init_parts in E as (Er & Eh & Ei). cbn [open_tree t_root t_heap] in Er, Eh.
  destruct (resolve objects o) as [[] x]; [|discriminate]. destruct (alloc (d_copies tg)) as [c0|e| |]; cbn [snd]; try discriminate.
  pose proof (insert_kids fuel _ _ _ _ _ t k (ORef c0 0) Hd Hk Er Eh Ei) as Hi. destruct (name_insert fuel t k (ORef c0 0)) as [t2 r]. exact Hi.
Qed.
(** merging stops at it *)
Lemma merge_stuck : forall fuel p new names tg k o, In (k, o) names -> asks o p = Ok true ->
  (forall tg', snd (append_string objects alloc fuel new k o tg') <> Ok tt) -> snd (merge_strings objects alloc fuel p new names tg) <> Ok tt.
Proof.
  intros fuel p new names. induction names as [|[k1 o1] names IH]; intros tg k o Hin Ha Hs; [destruct Hin|]. cbn [merge_strings].
  destruct Hin as [E|Hin].
  - apply pair_equal_spec in E as [-> ->]. rewrite Ha. specialize (Hs tg). destruct (append_string _ _ fuel new k o tg) as [tg' [[]|e| |]]; cbn [snd] in *; congruence.
  - destruct (asks o1 p) as [[|]|e| |]; cbn [snd]; try discriminate; [|now apply (IH tg k o)].
    destruct (append_string _ _ fuel new k1 o1 tg) as [tg' [[]|e| |]]; cbn [snd]; try discriminate. now apply (IH tg' k o).
Qed.

(** the map that the source's tree is read into *)
Lemma source_map : forall h root es, name_entries h root es -> NoDup (map fst es) ->
  exists F, forall fuel, (F <= fuel)%nat -> exists t, initialize buffer_ltb name_as_key false fuel (open_tree h root) = (t, Ok tt) /\
    (forall k v, In (k, v) (t_map t) <-> In (k, v) es) /\ NoDup (map fst (t_map t)).
Proof.
  intros h root es H Hn. destruct (opened h root es H) as [F HF]. exists F. intros fuel Hf. destruct (HF fuel Hf) as (t & E & (_ & Ha) & _).
  exists t. split; [exact E|]. apply agrees_in; [exact Ha|exact Hn|]. now apply name_bytes in H.
Qed.

(** ** one array in the target *)
Definition open_target (tg : target) (ds : list (bytes * obj)) : Prop := flat tg /\ string_destinations tg ds /\ NoDup (map fst ds).
Definition closed_target (tg : target) (ds : list (bytes * obj)) : Prop :=
  (exists root, d_tree tg = Some root /\ t_kids root = None /\ t_limits root = true) /\ string_destinations tg ds /\ NoDup (map fst ds).

Lemma empty_entries : forall h, name_entries h empty_root [].
Proof. intros h. now apply te_empty. Qed.
Lemma target_root : forall tg ds, string_destinations tg ds ->
  name_entries (d_nodes tg) (match d_tree tg with Some r => r | None => empty_root end) ds.
Proof. intros tg ds H. unfold string_destinations in H. destruct (d_tree tg); [exact H|]. subst ds. apply empty_entries. Qed.

Lemma append_open : forall f new k o p tg ds c, open_target tg ds -> indirect_destination objects o p -> all_bytes k -> ~ In k (map fst ds) ->
  alloc (d_copies tg) = Ok c ->
  exists tg' ds', append_string objects alloc (S (S f)) new k o tg = (tg', Ok tt) /\ closed_target tg' ds' /\
    (forall k2 v2, In (k2, v2) ds' <-> In (k2, v2) ((k, ORef c 0) :: ds)) /\
    d_copies tg' = d_copies tg ++ [(c, fix_page new (snd (resolve objects o)))].
Proof.
  intros f new k o p tg ds c (Hf & Hd & Hn) Ho Hb Hk Hc. apply target_root in Hd. unfold append_string.
  remember (match d_tree tg with Some r => r | None => empty_root end) as root eqn:Er.
  assert (Hroot : t_kids root = None /\ t_limits root = false) by (subst root; destruct (d_tree tg) as [r|] eqn:Et; [now apply Hf|split; reflexivity]).
  destruct Hroot as [Hkids Hlim]. destruct (flat_opened (S f) _ _ _ Hd Hkids) as (t & Ei & Hr & Etr & Eth).
  destruct (ready_find (S (S f)) t ds k Hr Hb) as [_ Ec].
  assert (E : name_contains (S (S f)) (open_tree (d_nodes tg) root) k = (t, Ok false)).
  { unfold name_contains, contains in *. rewrite Ei. rewrite (ready_init _ _ _ Hr) in Ec. rewrite Ec. apply first_none in Hk. rewrite Hk. reflexivity. }
  rewrite E. destruct Ho as (n & x & d & -> & Hx & _). cbn [resolve snd]. rewrite Hx. rewrite Hc.
  destruct (insert_flat f t ds k (ORef c 0) Hr Hn) as (t' & m & Ein & Eh & Hk' & Hl' & Hent & Hnd & Hin); [now apply name_bytes in Hd|now rewrite Etr..|exact Hb|exact Hk|].
  rewrite Ein. eexists. exists m. split; [reflexivity|]. split; [|split; [exact Hin|reflexivity]].
  split; [exists (t_root t'); split; [reflexivity|split; assumption]|]. split; [|exact Hnd]. unfold string_destinations. cbn [d_tree d_nodes]. rewrite Eh. exact Hent.
Qed.
Lemma append_closed : forall f new k o p tg ds c, closed_target tg ds -> indirect_destination objects o p -> all_bytes k -> ~ In k (map fst ds) ->
  alloc (d_copies tg) = Ok c ->
  exists tg', append_string objects alloc (S (S f)) new k o tg = (tg', Throw EDuplicateKey) /\ string_destinations tg' [].
Proof.
  intros f new k o p tg ds c ((root & Hroot & Hkids & Hlim) & Hd & Hn) Ho Hb Hk Hc. unfold string_destinations in Hd. rewrite Hroot in Hd. unfold append_string. rewrite Hroot.
  destruct (flat_opened (S f) _ _ _ Hd Hkids) as (t & Ei & Hr & Etr & Eth).
  destruct (ready_find (S (S f)) t ds k Hr Hb) as [_ Ec].
  assert (E : name_contains (S (S f)) (open_tree (d_nodes tg) root) k = (t, Ok false)).
  { unfold name_contains, contains in *. rewrite Ei. rewrite (ready_init _ _ _ Hr) in Ec. rewrite Ec. apply first_none in Hk. rewrite Hk. reflexivity. }
  rewrite E. destruct Ho as (n & x & d & -> & Hx & _). cbn [resolve snd]. rewrite Hc.
  destruct (insert_limits (S (S f)) t ds k (ORef c 0) Hr) as (t' & Ein & Eh & Hk' & Hv'); [now rewrite Etr..|].
  rewrite Ein. eexists. split; [reflexivity|]. unfold string_destinations. cbn [d_tree d_nodes]. now apply te_empty.
Qed.

Hypothesis alloc_ok : forall l, exists c, alloc l = Ok c.
Definition all_good (names : list (bytes * obj)) : Prop :=
  forall k o, In (k, o) names -> all_bytes k /\ exists p, indirect_destination objects o p.

Lemma merge_closed : forall f p new names tg ds, closed_target tg ds -> all_good names ->
  (forall k o, In (k, o) names -> indirect_destination objects o p -> ~ In k (map fst ds)) ->
  (forall k o, In (k, o) names -> ~ indirect_destination objects o p) /\ merge_strings objects alloc (S (S f)) p new names tg = (tg, Ok tt) \/
  (exists k o, In (k, o) names /\ indirect_destination objects o p) /\
    exists tg', merge_strings objects alloc (S (S f)) p new names tg = (tg', Throw EDuplicateKey) /\ string_destinations tg' [].
Proof.
  intros f p new names. induction names as [|[k o] names IH]; intros tg ds Hc Hg Hd; cbn [merge_strings].
  - left. split; [intros k o []|reflexivity].
  - destruct (Hg k o (or_introl eq_refl)) as (Hb & q & Hq). rewrite (asks_indirect o q p Hq). destruct (N.eqb_spec q p) as [->|Hne].
    + right. split; [exists k, o; split; [now left|exact Hq]|]. destruct (alloc_ok (d_copies tg)) as (c & Ec).
      destruct (append_closed f new k o p tg ds c Hc Hq Hb (Hd k o (or_introl eq_refl) Hq) Ec) as (tg' & E & He). rewrite E. exists tg'. split; [reflexivity|exact He].
    + destruct (IH tg ds Hc) as [(Hno & E)|((k2 & o2 & H1 & H2) & E)]; [intros k2 o2 H2; apply (Hg k2 o2); now right|intros k2 o2 H2; apply (Hd k2 o2); now right| |].
      * left. split; [|exact E]. intros k2 o2 [X|X]; [|now apply (Hno k2)]. apply pair_equal_spec in X as [<- <-]. intros Hp.
        pose proof (asks_indirect o q p Hq) as E1. pose proof (asks_indirect o p p Hp) as E2. rewrite E1 in E2. rewrite N.eqb_refl in E2.
        assert (E3 : (q =? p) = true) by congruence. apply N.eqb_eq in E3. now apply Hne.
      * right. split; [exists k2, o2; split; [now right|exact H2]|exact E].
Qed.
Lemma merge_pages_closed : forall f h root pages t tg ds, initialize buffer_ltb name_as_key false (S (S f)) (open_tree h root) = (t, Ok tt) ->
  closed_target tg ds -> all_good (t_map t) ->
  (forall p k o, In p (map fst pages) -> In (k, o) (t_map t) -> indirect_destination objects o p -> ~ In k (map fst ds)) ->
  (exists p k o, In p (map fst pages) /\ In (k, o) (t_map t) /\ indirect_destination objects o p) ->
  exists tg', merge_pages objects alloc (S (S f)) pages (Some (h, root)) tg = (tg', Throw EDuplicateKey) /\ string_destinations tg' [].
Proof.
  intros f h root pages t tg ds Ei Hc Hg. induction pages as [|[p new] pages IH]; intros Hd (p0 & k & o & Hp & Hin & Ho); [destruct Hp|].
  cbn [merge_pages merge_page]. rewrite Ei.
  destruct (merge_closed f p new (t_map t) tg ds Hc Hg) as [(Hno & E)|(_ & tg' & E & He)].
  - intros k2 o2 H2 H3. apply (Hd p k2 o2); [now left|exact H2|exact H3].
  - rewrite E. apply IH; [intros p2 k2 o2 H1; apply Hd; now right|]. exists p0, k, o. split; [|split; assumption].
    destruct Hp as [X|X]; [|exact X]. cbn [fst] in X. subst p0. now destruct (Hno k o).
  - rewrite E. exists tg'. split; [reflexivity|exact He].
Qed.

Lemma merge_none : forall f p new names tg, all_good names -> (forall k o, In (k, o) names -> ~ indirect_destination objects o p) ->
  merge_strings objects alloc f p new names tg = (tg, Ok tt).
Proof.
  intros f p new names. induction names as [|[k o] names IH]; intros tg Hg Hn; [reflexivity|]. cbn [merge_strings].
  destruct (Hg k o (or_introl eq_refl)) as (_ & q & Hq). rewrite (asks_indirect o q p Hq). destruct (N.eqb_spec q p) as [->|_].
  - now destruct (Hn k o (or_introl eq_refl)).
  - apply IH; [intros k2 o2 H2; apply (Hg k2 o2); now right|intros k2 o2 H2; apply (Hn k2 o2); now right].
Qed.
Lemma dest_unique : forall o p q, indirect_destination objects o p -> indirect_destination objects o q -> p = q.
Proof.
  intros o p q Hp Hq. pose proof (asks_indirect o p q Hp) as E1. pose proof (asks_indirect o q q Hq) as E2. rewrite E1 in E2. rewrite N.eqb_refl in E2.
  assert (E3 : (p =? q) = true) by congruence. now apply N.eqb_eq.
Qed.

(** into an open target: nothing, one, or more *)
Lemma merge_open : forall f p new names tg ds, open_target tg ds -> all_good names -> NoDup (map fst names) ->
  (forall k o, In (k, o) names -> indirect_destination objects o p -> ~ In k (map fst ds)) ->
  (forall k o, In (k, o) names -> ~ indirect_destination objects o p) /\ merge_strings objects alloc (S (S f)) p new names tg = (tg, Ok tt) \/
  (exists k o c tg' ds', In (k, o) names /\ indirect_destination objects o p /\ (forall k2 o2, In (k2, o2) names -> indirect_destination objects o2 p -> k2 = k) /\
    alloc (d_copies tg) = Ok c /\
    merge_strings objects alloc (S (S f)) p new names tg = (tg', Ok tt) /\ closed_target tg' ds' /\
    (forall k2 v2, In (k2, v2) ds' <-> In (k2, v2) ((k, ORef c 0) :: ds)) /\ d_copies tg' = d_copies tg ++ [(c, fix_page new (snd (resolve objects o)))]) \/
  (exists tg', merge_strings objects alloc (S (S f)) p new names tg = (tg', Throw EDuplicateKey) /\ string_destinations tg' []).
Proof.
  intros f p new names. induction names as [|[k o] names IH]; intros tg ds Hop Hg Hn Hd; cbn [merge_strings].
  - left. split; [intros k o []|reflexivity].
  - destruct (Hg k o (or_introl eq_refl)) as (Hb & q & Hq). rewrite (asks_indirect o q p Hq). apply NoDup_cons_iff in Hn as [Hn1 Hn2].
    assert (Hg' : all_good names) by (intros k2 o2 H2; apply (Hg k2 o2); now right).
    destruct (N.eqb_spec q p) as [->|Hne].
    + right. destruct (alloc_ok (d_copies tg)) as (c & Ec).
      destruct (append_open f new k o p tg ds c Hop Hq Hb (Hd k o (or_introl eq_refl) Hq) Ec) as (tg1 & ds1 & E & Hc1 & Hin1 & Hcp). rewrite E.
      destruct (merge_closed f p new names tg1 ds1 Hc1 Hg') as [(Hno & E2)|(_ & tg' & E2 & He)].
      { intros k2 o2 H2 H3 Hi. apply in_map_iff in Hi as ([k3 v3] & <- & Hi). apply Hin1 in Hi. cbn [fst] in *. destruct Hi as [X|Hi].
        - apply pair_equal_spec in X as [<- _]. apply Hn1. apply in_map_iff. exists (k, o2). split; [reflexivity|exact H2].
        - apply (Hd k3 o2 (or_intror H2) H3). apply in_map_iff. exists (k3, v3). split; [reflexivity|exact Hi]. }
      * left. exists k, o, c, tg1, ds1. split; [now left|]. split; [exact Hq|]. split; [|split; [exact Ec|split; [exact E2|split; [exact Hc1|split; [exact Hin1|exact Hcp]]]]].
        intros k2 o2 [X|H2] H3; [apply pair_equal_spec in X as [<- _]; reflexivity|]. now destruct (Hno k2 o2).
      * right. exists tg'. split; assumption.
    + destruct (IH tg ds Hop Hg' Hn2) as [(Hno & E)|[(k2 & o2 & c & tg' & ds' & H1 & H2 & Hu & H3)|E]]; [intros k2 o2 H2; apply (Hd k2 o2); now right| | |].
      * left. split; [|exact E]. intros k2 o2 [X|X]; [|now apply (Hno k2)]. apply pair_equal_spec in X as [<- <-]. intros Hp. apply Hne. now apply (dest_unique o).
      * right. left. exists k2, o2, c, tg', ds'. split; [now right|]. split; [exact H2|]. split; [|exact H3].
        intros k3 o3 [X|X] H4; [|now apply (Hu k3 o3)]. apply pair_equal_spec in X as [<- <-]. exfalso. apply Hne. now apply (dest_unique o).
      * right. right. exact E.
Qed.
End Merge.

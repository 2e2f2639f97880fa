(** Facts about name and number trees. *)
From Coq Require Import List NArith ZArith Bool Lia.
From Verif.Model Require Import Base SMap Object Containers Tree.
From Verif.Spec Require Import Containers Tree.
From Verif.Proof Require Import Tac SMap Containers.
Import ListNotations.
Local Open Scope N_scope.

Scheme en_ind2 := Induction for entries Sort Prop
with ea_ind2 := Induction for entries_all Sort Prop.
Combined Scheme en_mut from en_ind2, ea_ind2.

(** the first entry with a key *)
Fixpoint first (es : list (bytes * obj)) (k : bytes) : option obj :=
  match es with
  | [] => None
  | (k', v) :: t => if beq k k' then Some v else first t k
  end.
Lemma first_app : forall a b k, first (a ++ b) k = match first a k with Some v => Some v | None => first b k end.
Proof. induction a as [|[k' v] a IH]; intros b k; cbn [first app]; [reflexivity|]. destruct (beq k k'); auto. Qed.
Lemma first_in : forall es k v, first es k = Some v -> In (k, v) es.
Proof.
  induction es as [|[k' v'] es IH]; intros k v H; cbn [first] in H; [discriminate|].
  destruct (beq k k') eqn:E; [|right; auto]. apply beq_true in E. left. congruence.
Qed.
Lemma first_none : forall es k, first es k = None <-> ~ In k (map fst es).
Proof.
  induction es as [|[k' v'] es IH]; intros k; cbn [first map fst In]; [tauto|].
  destruct (beq k k') eqn:E.
  - apply beq_true in E. subst k'. split; [discriminate|intros H; exfalso; apply H; auto].
  - rewrite IH. assert (k' <> k). { intros ->. rewrite (proj2 (beq_true k k) eq_refl) in E. discriminate. } tauto.
Qed.
Lemma first_nodup : forall es k v, NoDup (map fst es) -> In (k, v) es -> first es k = Some v.
Proof.
  induction es as [|[k' v'] es IH]; intros k v Hn Hin; [contradiction|]. cbn [map fst] in Hn. apply NoDup_cons_iff in Hn. destruct Hn as [Hn1 Hn2].
  cbn [first]. destruct Hin as [[= -> ->]|Hin].
  - rewrite (proj2 (beq_true k k) eq_refl). reflexivity.
  - destruct (beq k k') eqn:E; [|auto]. apply beq_true in E. subst k'. exfalso. apply Hn1. apply in_map_iff. exists (k, v). auto.
Qed.

Definition either (f g : fmap bytes obj) : fmap bytes obj := fun k => match f k with Some v => Some v | None => g k end.

Lemma agrees_keep : forall m f k v, agrees m f -> all_bytes k -> agrees (om_insert buffer_ltb k v m) (either f (fun k' => if beq k' k then Some v else None)).
Proof.
  intros m f k v H Hb. change (om_insert buffer_ltb k v m) with (sm_insert k v m). destruct (f k) as [w|] eqn:E.
  - apply (agrees_ext _ f). { apply agrees_insert_kept; [assumption|assumption|congruence]. }
    intros k2 _. unfold either. destruct (f k2) eqn:E2; [reflexivity|]. destruct (beq k2 k) eqn:Eb; [|reflexivity]. apply beq_true in Eb. congruence.
  - apply (agrees_ext _ (fm_set beq f k v)). { apply agrees_insert; assumption. }
    intros k2 _. unfold either, fm_set. destruct (beq k2 k) eqn:Eb; [|destruct (f k2); reflexivity].
    apply beq_true in Eb. subst k2. rewrite E. reflexivity.
Qed.

Lemma agrees_all : forall other m f, Forall (fun e => all_bytes (fst e)) other -> agrees m f ->
  agrees (om_insert_all buffer_ltb m other) (either f (first other)).
Proof.
  induction other as [|[k v] other IH]; intros m f Hk H.
  - apply (agrees_ext _ f); [exact H|]. intros k _. unfold either. cbn [first]. destruct (f k); reflexivity.
  - apply Forall_cons_iff in Hk. destruct Hk as [Hk1 Hk2]. cbn [fst] in Hk1. unfold om_insert_all. cbn [fold_left fst snd].
    eapply agrees_ext; [apply (IH _ _ Hk2 (agrees_keep m f k v H Hk1))|].
    intros k2 _. unfold either. cbn [first]. destruct (f k2); [reflexivity|]. destruct (beq k2 k); reflexivity.
Qed.

Lemma agrees_first : forall m f, agrees m f -> forall k, all_bytes k -> first m k = f k.
Proof.
  intros m f (Hs & Hk & Hf) k Hb. rewrite <- Hf by exact Hb. destruct (sm_find k m) as [v|] eqn:E.
  - apply sm_find_in in E; [|assumption..]. apply first_nodup; [|exact E].
    clear - Hs. induction Hs as [|a l Hs IH Hl]; cbn [map]; constructor; [|exact IH].
    intros Hin. apply in_map_iff in Hin. destruct Hin as (e & He & Hin). rewrite Forall_forall in Hl. specialize (Hl e Hin). rewrite He, ltb_irrefl in Hl. discriminate.
  - apply first_none. intros Hin. apply in_map_iff in Hin. destruct Hin as ([k' v] & He & Hin). cbn [fst] in He. subst k'.
    apply sm_find_in in Hin; [|assumption..]. congruence.
Qed.

Lemma pairs_agree : forall l es, paired bytes string_key l es -> forall m f, agrees m f ->
  exists m', insert_pairs buffer_ltb name_as_key m l = Ok m' /\ agrees m' (either f (first es)).
Proof.
  intros l es H. induction H as [|o k v l es [Ho Hb] H IH]; intros m f Hm.
  - exists m. split; [reflexivity|]. apply (agrees_ext _ f); [exact Hm|]. intros k _. unfold either. cbn [first]. destruct (f k); reflexivity.
  - destruct (IH (om_insert buffer_ltb k v m) _ (agrees_keep m f k v Hm Hb)) as (m' & E & Ha). exists m'. split.
    + cbn [insert_pairs]. assert (name_as_key o = Some k) as -> by (destruct Ho as [->| ->]; reflexivity). exact E.
    + eapply agrees_ext; [exact Ha|]. intros k2 _. unfold either. cbn [first]. destruct (f k2); [reflexivity|]. destruct (beq k2 k); reflexivity.
Qed.

Lemma keys_agree : forall h,
  (forall k es, entries bytes string_key t_names h k es ->
     exists n ty F, kid_at h k = Ok (ty, n) /\ forall fuel, (F <= fuel)%nat ->
       exists m, all_keys buffer_ltb name_as_key false fuel h ty n = Ok m /\ agrees m (first es)) /\
  (forall ks es, entries_all bytes string_key t_names h ks es ->
     exists F, forall fuel, (F <= fuel)%nat -> forall m0 f, agrees m0 f ->
       exists m, kids_keys buffer_ltb (all_keys buffer_ltb name_as_key false fuel h) h m0 ks = Ok m /\ agrees m (either f (first es))).
Proof.
  intros h. apply en_mut.
  - intros k n l es E Hk Hl Hv Hp. exists n, KLeaf, 1%nat. split.
    + unfold kid_at. rewrite E. unfold create. rewrite Hk, Hl, Hv. reflexivity.
    + intros fuel Hf. destruct fuel as [|fuel]; [lia|]. cbn [all_keys values]. rewrite Hv.
      destruct (pairs_agree l es Hp [] fm_empty agrees_empty) as (m & Em & Ha). exists m. split; [exact Em|].
      apply (agrees_ext _ _ _ Ha). reflexivity.
  - intros k n ks es E Hk Hl Hn _ Ha [F HF]. exists n, KIntermediate, (S F). split.
    + unfold kid_at. rewrite E. unfold create. rewrite Hk, Hl, Hn. reflexivity.
    + intros fuel Hf. destruct fuel as [|fuel]; [lia|]. cbn [all_keys]. rewrite Hk.
      destruct (HF fuel) with (m0 := @nil (bytes * obj)) (f := @fm_empty bytes obj) as (m & Em & Hm); [lia|apply agrees_empty|].
      exists m. split; [exact Em|]. apply (agrees_ext _ _ _ Hm). reflexivity.
  - exists O. intros fuel _ m0 f H. exists m0. split; [reflexivity|]. apply (agrees_ext _ f); [exact H|].
    intros k _. unfold either. cbn [first]. destruct (f k); reflexivity.
  - intros k ks es es' H1 (n & ty & F1 & Ek & HF1) H2 (F2 & HF2). exists (Nat.max F1 F2). intros fuel Hf m0 f Hm0.
    destruct (HF1 fuel) as (mk & Emk & Hmk); [lia|].
    assert (Hall : agrees (om_insert_all buffer_ltb m0 mk) (either f (first mk))).
    { apply agrees_all; [|exact Hm0]. destruct Hmk as (_ & Hkk & _). exact Hkk. }
    destruct (HF2 fuel ltac:(lia) _ _ Hall) as (m & Em & Hm). exists m. split.
    + cbn [kids_keys]. rewrite Ek. cbn [rbind fst snd]. rewrite Emk. cbn [rbind]. exact Em.
    + eapply agrees_ext; [exact Hm|]. intros k2 Hb2. unfold either. rewrite first_app.
      rewrite (agrees_first _ _ Hmk k2 Hb2). destruct (f k2); [reflexivity|]. destruct (first es k2); reflexivity.
Qed.

Lemma tree_keys : forall h root es, name_entries h root es ->
  exists F, forall fuel, (F <= fuel)%nat -> exists m, all_keys buffer_ltb name_as_key false fuel h KRoot root = Ok m /\ agrees m (first es).
Proof.
  intros h root es H. destruct H as [l es Hk Hv Hp|ks es Hk Hv Ha|Hk Hv].
  - exists 1%nat. intros fuel Hf. destruct fuel as [|fuel]; [lia|]. cbn [all_keys values]. rewrite Hk, Hv. cbn [rbind].
    destruct (pairs_agree l es Hp [] fm_empty agrees_empty) as (m & Em & Hm). exists m. split; [exact Em|]. apply (agrees_ext _ _ _ Hm). reflexivity.
  - destruct (proj2 (keys_agree h) ks es Ha) as [F HF]. exists (S F). intros fuel Hf. destruct fuel as [|fuel]; [lia|].
    cbn [all_keys values]. rewrite Hk, Hv. destruct (HF fuel ltac:(lia) [] fm_empty agrees_empty) as (m & Em & Hm).
    rewrite Em. cbn [rbind]. exists m. split; [reflexivity|]. apply (agrees_ext _ _ _ Hm). reflexivity.
  - exists 1%nat. intros fuel Hf. destruct fuel as [|fuel]; [lia|]. cbn [all_keys values]. rewrite Hk, Hv. cbn [rbind].
    exists []. split; [reflexivity|]. apply agrees_empty.
Qed.

(** reading the tree a second time gives the same map *)
Lemma flatten_paired : forall m, Forall (fun e => all_bytes (fst e)) m -> paired bytes string_key (flatten name_of_key m) m.
Proof.
  induction m as [|[k v] m IH]; intros H; [constructor|]. apply Forall_cons_iff in H. destruct H as [H1 H2]. cbn [flatten flat_map fst snd app].
  constructor; [|apply IH; exact H2]. split; [left; reflexivity|exact H1].
Qed.

Definition ready (t : tree bytes obj) (es : list (bytes * obj)) : Prop := t_init t = true /\ agrees (t_map t) (first es).

Lemma opened : forall h root es, name_entries h root es ->
  exists F, forall fuel, (F <= fuel)%nat ->
    exists t, initialize buffer_ltb name_as_key false fuel (open_tree h root) = (t, Ok tt) /\ ready t es /\ t_root t = root /\ t_heap t = h.
Proof.
  intros h root es H. destruct (tree_keys h root es H) as [F HF]. exists F. intros fuel Hf. destruct (HF fuel Hf) as (m & Em & Hm).
  unfold initialize. cbn [open_tree t_init t_heap t_root]. rewrite Em. eexists. split; [reflexivity|]. split; [split; [reflexivity|exact Hm]|]. split; reflexivity.
Qed.

Lemma ready_init : forall fuel t es, ready t es -> initialize buffer_ltb name_as_key false fuel t = (t, Ok tt).
Proof. intros fuel t es [H _]. unfold initialize. rewrite H. reflexivity. Qed.

Lemma ready_find : forall fuel t es k, ready t es -> all_bytes k ->
  name_find fuel t k = (t, match first es k with Some v => Ok v | None => Throw EGeneral end) /\
  name_contains fuel t k = (t, Ok (match first es k with Some _ => true | None => false end)).
Proof.
  intros fuel t es k Hr Hb. unfold name_find, name_contains, find, contains. rewrite (ready_init fuel t es Hr). destruct Hr as [_ (_ & _ & Hf)].
  change (om_find buffer_ltb k (t_map t)) with (sm_find k (t_map t)). rewrite (Hf k Hb). auto.
Qed.

Lemma om_find_absent : forall (m : list (number_key * addressed)) a z, Forall (fun e => fst (fst e) <> a) m -> om_find number_lt (a, z) m = None.
Proof.
  induction m as [|[[a' z'] v] m IH]; intros a z H; [reflexivity|]. apply Forall_cons_iff in H. destruct H as [H1 H2]. cbn [fst] in H1.
  cbn [om_find]. unfold number_lt at 1 2. cbn [fst]. destruct (a <? a') eqn:E1; [reflexivity|]. destruct (a' <? a) eqn:E2; [|exfalso; lia].
  apply IH. assumption.
Qed.
Lemma om_insert_addr : forall (m : list (number_key * addressed)) k v a, fst k <> a -> Forall (fun e => fst (fst e) <> a) m ->
  Forall (fun e => fst (fst e) <> a) (om_insert number_lt k v m).
Proof.
  induction m as [|[k' v'] m IH]; intros k v a Hk H; cbn [om_insert]; [apply Forall_cons; auto|].
  apply Forall_cons_iff in H. destruct H as [H1 H2]. destruct (number_lt k k'); [|destruct (number_lt k' k)].
  - apply Forall_cons; [exact Hk|]. apply Forall_cons; assumption.
  - apply Forall_cons; [exact H1|]. apply IH; assumption.
  - apply Forall_cons; assumption.
Qed.
Lemma number_pairs : forall l es a, paired Z integer_key l es -> Forall (fun o => fst o <> a) l -> forall m, Forall (fun e => fst (fst e) <> a) m ->
  exists m', insert_pairs number_lt number_as_key m l = Ok m' /\ Forall (fun e => fst (fst e) <> a) m'.
Proof.
  intros l es a H. induction H as [|o z v l es Ho H IH]; intros Hl m Hm; [exists m; auto|].
  apply Forall_cons_iff in Hl. destruct Hl as [Hl1 Hl2]. apply Forall_cons_iff in Hl2. destruct Hl2 as [_ Hl2].
  destruct o as [ao oo]. unfold integer_key in Ho. cbn [snd] in Ho. subst oo. cbn [insert_pairs number_as_key].
  apply IH; [assumption|]. apply om_insert_addr; assumption.
Qed.

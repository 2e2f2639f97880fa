(** Lemmas on change notification and hash caches. *)
From Coq Require Import List NArith ZArith Bool PeanoNat Lia Relations.
From Verif.Model Require Import Base SMap Containers Heap.
From Verif.Spec Require Import Heap.
From Verif.Proof Require Import Tac SMap.
Import ListNotations.

Lemma upd_same : forall h x n, upd_node h x n x = n.
Proof. intros. unfold upd_node. rewrite Nat.eqb_refl. reflexivity. Qed.
Lemma upd_other : forall h x n y, y <> x -> upd_node h x n y = h y.
Proof. intros. unfold upd_node. destruct (Nat.eqb_spec y x); congruence. Qed.

(** Same values, flags and observers; dirty flags and caches may differ. *)
Definition shape_eq (h h' : heap) : Prop :=
  forall y, ncont (h' y) = ncont (h y) /\ ninit (h' y) = ninit (h y) /\ nobs (h' y) = nobs (h y).
Lemma shape_refl : forall h, shape_eq h h.
Proof. intros h y. auto. Qed.
Lemma shape_trans : forall a b c, shape_eq a b -> shape_eq b c -> shape_eq a c.
Proof. intros a b c H1 H2 y. destruct (H1 y) as (?&?&?), (H2 y) as (?&?&?). repeat split; congruence. Qed.
Lemma shape_sym : forall a b, shape_eq a b -> shape_eq b a.
Proof. intros a b H y. destruct (H y) as (?&?&?). repeat split; congruence. Qed.
Lemma shape_dirty : forall h x, shape_eq h (upd_node h x (set_dirty (h x))).
Proof. intros h x y. unfold upd_node. destruct (Nat.eqb_spec y x) as [->|]; cbn; auto. Qed.
Lemma shape_cache : forall h x v, shape_eq h (upd_node h x (set_cache (h x) v)).
Proof. intros h x v y. unfold upd_node. destruct (Nat.eqb_spec y x) as [->|]; cbn; auto. Qed.

(** [y] hears of a change of [x]: from [x] through initialised objects. *)
Inductive reached (h : heap) (x : nat) : nat -> Prop :=
| re_self : reached h x x
| re_up : forall y z, reached h x y -> ninit (h y) = true -> In z (nobs (h y)) -> reached h x z.

Lemma reached_shape : forall h h' x y, shape_eq h h' -> reached h x y -> reached h' x y.
Proof.
  intros h h' x y Hs H. induction H as [|y z H IH Hi Hz]; [constructor|].
  destruct (Hs y) as (_&E1&E2). eapply re_up; [exact IH|congruence|congruence].
Qed.
Lemma reached_trans : forall h x y z, reached h x y -> reached h y z -> reached h x z.
Proof. intros h x y z H1 H2. induction H2; [exact H1|]. eapply re_up; eassumption. Qed.
Lemma reached_first : forall h x z, reached h x z ->
  z = x \/ (ninit (h x) = true /\ exists o, In o (nobs (h x)) /\ reached h o z).
Proof.
  intros h x z H. induction H as [|y z H IH Hi Hz]; [left; reflexivity|]. right.
  destruct IH as [->|(Hx & o & Ho & Hr)].
  - split; [exact Hi|]. exists z. split; [exact Hz|constructor].
  - split; [exact Hx|]. exists o. split; [exact Ho|]. eapply re_up; eassumption.
Qed.

(** What a notification does. *)
Definition heard (h h2 : heap) (hit : nat -> Prop) : Prop :=
  shape_eq h h2 /\
  (forall y, ndirty (h y) = true -> ndirty (h2 y) = true) /\
  (forall y, ncache (h2 y) = ncache (h y) \/ ncache (h2 y) = 0%N) /\
  (forall y, hit y -> ncache (h2 y) = 0%N /\ (ninit (h y) = true -> ndirty (h2 y) = true)) /\
  (forall y, ~ hit y -> h2 y = h y).

Lemma on_changed_spec : forall fuel h x h2, on_changed fuel h x = Ok h2 -> heard h h2 (reached h x).
Proof.
  induction fuel as [|fuel IH]; intros h x h2 H; [discriminate|].
  cbn [on_changed] in H. apply rbind_ok in H. destruct H as (h1 & H & E). injection E as <-.
  destruct (ninit (h x)) eqn:Hi.
  - set (h0 := upd_node h x (set_dirty (h x))) in H.
    assert (Hfold : forall l ha hb, shape_eq h ha -> (forall o, In o l -> In o (nobs (h x))) ->
              fold_left (fun (acc : res heap) o => do h' <- acc;; on_changed fuel h' o) l (Ok ha) = Ok hb ->
              heard ha hb (fun y => exists o, In o l /\ reached h o y)).
    { induction l as [|o l IHl]; intros ha hb Hs Hl Hf.
      - cbn in Hf. injection Hf as <-. split; [apply shape_refl|]. split; [auto|]. split; [auto|]. split.
        + intros y (o & [] & _).
        + reflexivity.
      - cbn [fold_left rbind] in Hf. destruct (on_changed fuel ha o) as [hc| | |] eqn:Eo.
        2-4: exfalso; clear - Hf; induction l; cbn in Hf; [discriminate|apply IHl; exact Hf].
        apply IH in Eo. destruct Eo as (S1 & D1 & C1 & R1 & U1).
        assert (Hs' : shape_eq h hc) by (eapply shape_trans; eassumption).
        apply IHl in Hf; [|exact Hs'|intros; apply Hl; right; assumption].
        destruct Hf as (S2 & D2 & C2 & R2 & U2).
        split; [eapply shape_trans; eassumption|]. split; [auto|]. split; [|split].
        + intros y. destruct (C1 y), (C2 y); try (right; congruence). left. congruence.
        + intros y (o' & [<-|Ho'] & Hr).
          * assert (Hr' : reached ha o y) by (eapply reached_shape; eassumption).
            destruct (R1 y Hr') as (E1 & E2). split; [destruct (C2 y); congruence|]. intros. auto.
          * destruct (R2 y) as (E1 & E2). { exists o'. auto. } split; [exact E1|].
            intros Hy. apply E2. destruct (S1 y) as (_ & -> & _). exact Hy.
        + intros y Hn. rewrite U2, U1; [reflexivity| |].
          * intros Hr. apply Hn. exists o. split; [left; reflexivity|].
            eapply reached_shape; [apply shape_sym; exact Hs|exact Hr].
          * intros (o' & Ho' & Hr). apply Hn. exists o'. split; [right|]; assumption. }
    assert (Hs0 : shape_eq h h0) by apply shape_dirty.
    apply Hfold in H; [|exact Hs0|auto]. clear Hfold.
    destruct H as (S1 & D1 & C1 & R1 & U1).
    assert (Hs1 : shape_eq h h1) by (eapply shape_trans; eassumption).
    split; [|split; [|split; [|split]]].
    + eapply shape_trans; [exact Hs1|apply shape_cache].
    + intros y Hy. assert (Hy1 : ndirty (h1 y) = true).
      { apply D1. unfold h0, upd_node. destruct (Nat.eqb_spec y x) as [->|]; [reflexivity|exact Hy]. }
      unfold upd_node. destruct (Nat.eqb_spec y x) as [->|]; exact Hy1.
    + intros y. unfold upd_node. destruct (Nat.eqb_spec y x) as [->|Hne]; [right; reflexivity|].
      destruct (C1 y) as [E|E]; [left|right; exact E]. rewrite E. unfold h0. rewrite upd_other by exact Hne. reflexivity.
    + intros y Hr. destruct (Nat.eq_dec y x) as [->|Hne].
      * rewrite upd_same. cbn. split; [reflexivity|]. intros _. apply D1. unfold h0. rewrite upd_same. reflexivity.
      * rewrite upd_other by exact Hne. apply reached_first in Hr. destruct Hr as [->|(_ & o & Ho & Hr)]; [congruence|].
        destruct (R1 y) as (E1 & E2). { exists o. auto. } split; [exact E1|]. intros Hy. apply E2.
        unfold h0. rewrite upd_other by exact Hne. exact Hy.
    + intros y Hn. assert (Hne : y <> x). { intros ->. apply Hn. constructor. }
      rewrite upd_other by exact Hne. rewrite U1.
      * unfold h0. rewrite upd_other by exact Hne. reflexivity.
      * intros (o & Ho & Hr). apply Hn. eapply reached_trans; [|exact Hr].
        eapply re_up; [constructor|exact Hi|exact Ho].
  - injection H as <-.
    split; [apply shape_cache|]. split; [|split; [|split]].
    + intros y Hy. unfold upd_node. destruct (Nat.eqb_spec y x) as [->|]; exact Hy.
    + intros y. unfold upd_node. destruct (Nat.eqb_spec y x) as [->|]; [right|left]; reflexivity.
    + intros y Hr. apply reached_first in Hr. destruct Hr as [->|(Hi' & _)]; [|congruence].
      rewrite upd_same. cbn. split; [reflexivity|congruence].
    + intros y Hn. apply upd_other. intros ->. apply Hn. constructor.
Qed.

(** Notification ends when no object hears of itself. *)
Definition observes (h : heap) (o x : nat) : Prop := In o (nobs (h x)).

Lemma on_changed_ends : forall h x, Acc (observes h) x ->
  exists F, forall fuel h1, (F <= fuel)%nat -> shape_eq h h1 -> exists h2, on_changed fuel h1 x = Ok h2.
Proof.
  intros h x Ha. induction Ha as [x _ IH].
  assert (Hl : exists F, forall o, In o (nobs (h x)) -> forall fuel h1, (F <= fuel)%nat -> shape_eq h h1 ->
                 exists h2, on_changed fuel h1 o = Ok h2).
  { assert (IH' : forall o, In o (nobs (h x)) -> exists F, forall fuel h1, (F <= fuel)%nat -> shape_eq h h1 ->
                    exists h2, on_changed fuel h1 o = Ok h2) by exact IH. clear IH.
    induction (nobs (h x)) as [|o l IHl]; [exists O; intros o []|].
    destruct IHl as (F1 & H1). { intros; apply IH'; right; assumption. }
    destruct (IH' o (or_introl eq_refl)) as (F2 & H2).
    exists (Nat.max F1 F2). intros o' [<-|Ho'] fuel h1 Hf Hs.
    - apply H2; [lia|exact Hs].
    - apply (H1 o' Ho'); [lia|exact Hs]. }
  destruct Hl as (F & HF). exists (S F). intros fuel h1 Hf Hs. destruct fuel as [|fuel]; [lia|].
  cbn [on_changed]. destruct (ninit (h1 x)); [|eexists; reflexivity].
  assert (Hfold : forall l ha, shape_eq h ha -> (forall o, In o l -> In o (nobs (h x))) ->
            exists hb, fold_left (fun (acc : res heap) o => do h' <- acc;; on_changed fuel h' o) l (Ok ha) = Ok hb).
  { induction l as [|o l IHl]; intros ha Hsa Hl; [eexists; reflexivity|].
    cbn [fold_left rbind]. destruct (HF o (Hl o (or_introl eq_refl)) fuel ha) as (hc & E); [lia|exact Hsa|].
    rewrite E. apply IHl; [|intros; apply Hl; right; assumption].
    apply on_changed_spec in E. destruct E as (S1 & _). eapply shape_trans; eassumption. }
  destruct (Hfold (nobs (h1 x)) (upd_node h1 x (set_dirty (h1 x)))) as (hb & E).
  - eapply shape_trans; [exact Hs|apply shape_dirty].
  - intros o Ho. destruct (Hs x) as (_ & _ & <-). exact Ho.
  - rewrite E. cbn [rbind]. eexists. reflexivity.
Qed.

(** *** Invariant *)
Definition contains (h : heap) (c p : nat) : Prop := In c (children (ncont (h p))).

Record links (h : heap) : Prop := {
  g_sub : forall p c, contains h c p -> is_null h c \/ In p (nobs (h c));
  g_once : forall p c, ~ is_null h c -> (count_occ Nat.eq_dec (children (ncont (h p))) c <= 1)%nat;
  g_up : forall x, Acc (observes h) x;
  g_down : forall x, Acc (contains h) x
}.
Definition caches_ok (hl : leaf -> N) (hk : bytes -> N) (h : heap) : Prop :=
  forall p, ncache (h p) <> 0%N -> hash_of hl hk h p (ncache (h p)).

Lemma above_told : forall h x y, (forall p c, contains h c p -> is_null h c \/ In p (nobs (h c))) -> ~ is_null h x ->
  above h x y -> told h x y.
Proof.
  intros h x y Hs Hx Ha.
  assert (H : told h x y /\ ~ is_null h y).
  { induction Ha as [|y p Ha IH Hy]; [split; [constructor|exact Hx]|].
    destruct IH as (IH & Hn). split.
    - apply clos_rt_rt1n. apply clos_rt1n_rt in IH. eapply rt_trans; [exact IH|]. apply rt_step.
      destruct (Hs p y Hy); [contradiction|assumption].
    - intros E. unfold is_null in E. rewrite E in Hy. destruct Hy. }
  apply H.
Qed.

Lemma acc_sub : forall (R R' : nat -> nat -> Prop) x, (forall a b, R' a b -> R a b) -> Acc R x -> Acc R' x.
Proof. intros R R' x Hs H. induction H as [x _ IH]. constructor. intros y Hy. apply IH. apply Hs, Hy. Qed.

(** Adding the edge [o] above [c] keeps well-foundedness when [c] cannot be reached from [o]. *)
Lemma acc_add : forall (R R' : nat -> nat -> Prop) o c,
  (forall a b, R' a b -> R a b \/ (a = o /\ b = c)) ->
  ~ clos_refl_trans_1n _ (fun b a => R a b) o c ->
  (forall x, Acc R x) -> forall x, Acc R' x.
Proof.
  intros R R' o c Hs Hn Ha.
  assert (Ho : forall y, clos_refl_trans_1n _ (fun b a => R a b) o y -> Acc R' y).
  { intros y. induction (Ha y) as [y _ IH]. intros Hy. constructor. intros z Hz.
    destruct (Hs z y Hz) as [H|(-> & ->)]; [|contradiction].
    apply IH; [exact H|]. apply clos_rt_rt1n. apply clos_rt1n_rt in Hy.
    eapply rt_trans; [exact Hy|]. apply rt_step. exact H. }
  intros x. induction (Ha x) as [x _ IH]. constructor. intros y Hy.
  destruct (Hs y x Hy) as [H|(-> & ->)]; [apply IH; exact H|]. apply Ho. constructor.
Qed.

(** [hm] is [h] with the value of [x] replaced and its observations adjusted, possibly after attaching [co] to [x]. *)
Record edit_rel (h hm : heap) (x : nat) (co : option nat) : Prop := {
  e_flags : forall y, ninit (hm y) = ninit (h y) /\ ndirty (hm y) = ndirty (h y) /\ ncache (hm y) = ncache (h y);
  e_other : forall y, y <> x -> ncont (hm y) = ncont (h y);
  e_notnull : ~ is_null h x /\ ~ is_null hm x;
  e_obs_new : forall y o, In o (nobs (hm y)) -> In o (nobs (h y)) \/ (o = x /\ co = Some y);
  e_obs_old : forall y o, o <> x -> In o (nobs (h y)) -> In o (nobs (hm y));
  e_sub : forall c, contains hm c x -> is_null h c \/ In x (nobs (hm c));
  e_children : forall c, contains hm c x -> contains h c x \/ co = Some c;
  e_once : forall c, ~ is_null h c -> (count_occ Nat.eq_dec (children (ncont (hm x))) c <= 1)%nat;
  e_attach : forall c, co = Some c -> ~ told h x c
}.

Lemma null_edit : forall h hm x co c, edit_rel h hm x co -> (is_null h c <-> is_null hm c).
Proof.
  intros h hm x co c He. destruct (Nat.eq_dec c x) as [->|Hne].
  - destruct (e_notnull _ _ _ _ He). tauto.
  - unfold is_null. rewrite (e_other _ _ _ _ He c Hne). tauto.
Qed.

Lemma above_edit : forall h hm x co y, edit_rel h hm x co -> above hm x y -> above h x y.
Proof.
  intros h hm x co y He H. induction H as [|y p H IH Hy]; [constructor|].
  destruct (Nat.eq_dec p x) as [->|Hne]; [constructor|].
  rewrite (e_other _ _ _ _ He p Hne) in Hy. eapply above_up; eassumption.
Qed.

Lemma above_edit_rev : forall h hm x co y, edit_rel h hm x co -> above h x y -> above hm x y.
Proof.
  intros h hm x co y He H. induction H as [|y p H IH Hy]; [constructor|].
  destruct (Nat.eq_dec p x) as [->|Hne]; [constructor|].
  rewrite <- (e_other _ _ _ _ He p Hne) in Hy. eapply above_up; eassumption.
Qed.

(** the links of [hm] *)
Lemma edit_links : forall h hm x co, links h -> edit_rel h hm x co -> links hm.
Proof.
  intros h hm x co Hg He. destruct Hg as [G1 G2 G3 G4]. split.
  - intros p c Hc. rewrite <- (null_edit _ _ _ _ c He). destruct (Nat.eq_dec p x) as [->|Hne].
    + apply (e_sub _ _ _ _ He), Hc.
    + unfold contains in Hc. rewrite (e_other _ _ _ _ He p Hne) in Hc. destruct (G1 p c Hc) as [Hn|Ho]; [left; exact Hn|].
      right. apply (e_obs_old _ _ _ _ He); assumption.
  - intros p c Hn. rewrite <- (null_edit _ _ _ _ c He) in Hn. destruct (Nat.eq_dec p x) as [->|Hne].
    + apply (e_once _ _ _ _ He), Hn.
    + rewrite (e_other _ _ _ _ He p Hne). apply G2, Hn.
  - destruct co as [c|].
    + apply (acc_add (observes h) (observes hm) x c).
      * intros a b Hab. destruct (e_obs_new _ _ _ _ He b a Hab) as [H|(-> & E)]; [left; exact H|right].
        injection E as ->. auto.
      * exact (e_attach _ _ _ _ He c eq_refl).
      * exact G3.
    + intros y. apply (acc_sub (observes h)); [|apply G3].
      intros a b Hab. destruct (e_obs_new _ _ _ _ He b a Hab) as [H|(_ & E)]; [exact H|discriminate].
  - assert (Hch : forall a b, contains hm a b -> contains h a b \/ (a = a /\ b = x /\ co = Some a)).
    { intros a b Hab. destruct (Nat.eq_dec b x) as [->|Hne].
      - destruct (e_children _ _ _ _ He a Hab); [left|right]; auto.
      - left. unfold contains in *. rewrite (e_other _ _ _ _ He b Hne) in Hab. exact Hab. }
    destruct co as [c|].
    + apply (acc_add (contains h) (contains hm) c x).
      * intros a b Hab. destruct (Hch a b Hab) as [H|(_ & -> & E)]; [left; exact H|right]. injection E as ->. auto.
      * intros Hp. apply (e_attach _ _ _ _ He c eq_refl). apply above_told; [exact G1|apply (e_notnull _ _ _ _ He)|].
        clear - Hp. apply clos_rt1n_rt in Hp. apply clos_rt_rtn1 in Hp.
        assert (H : forall z, clos_refl_trans_n1 _ (fun b a => contains h a b) c z -> above h z c).
        { intros z Hz. induction Hz as [|y z Hyz Hz IH]; [constructor|].
          clear - Hyz IH. induction IH as [|y' p H IH Hy]; [eapply above_up; [constructor|exact Hyz]|].
          eapply above_up; eassumption. }
        apply H, Hp.
      * exact G4.
    + intros y. apply (acc_sub (contains h)); [|apply G4].
      intros a b Hab. destruct (Hch a b Hab) as [H|(_ & _ & E)]; [exact H|discriminate].
Qed.

Section Inv.
Variable hl : leaf -> N.
Variable hk : bytes -> N.

Lemma fresh_items_ext : forall f g l acc, (forall k c, In (k, c) l -> forall v, f c = Some v -> g c = Some v) ->
  forall v, fresh_items f acc l = Some v -> fresh_items g acc l = Some v.
Proof.
  induction l as [|[k c] l IH]; intros acc He v H; cbn [fresh_items] in *; [exact H|].
  destruct (f c) as [w|] eqn:E; [|discriminate]. rewrite (He k c (or_introl eq_refl) w E).
  apply IH; [|exact H]. intros k' c' Hin. apply (He k' c'). right. exact Hin.
Qed.

(** the hash of an object does not change when nothing inside it changed *)
Lemma fresh_edit : forall fuel h hm x co p v, edit_rel h hm x co -> ~ above hm x p ->
  fresh_hash hl hk fuel h p = Some v -> fresh_hash hl hk fuel hm p = Some v.
Proof.
  induction fuel as [|fuel IH]; intros h hm x co p v He Hn H; [discriminate|].
  cbn [fresh_hash] in *.
  assert (Hne : p <> x). { intros ->. apply Hn. constructor. }
  rewrite (e_other _ _ _ _ He p Hne).
  assert (Hc : forall c, In c (children (ncont (h p))) -> ~ above hm x c).
  { intros c Hc Ha. apply Hn. eapply above_up; [exact Ha|]. rewrite (e_other _ _ _ _ He p Hne). exact Hc. }
  destruct (ncont (h p)) as [l|l|m|c b]; cbn [children] in Hc.
  - exact H.
  - revert H. apply fresh_items_ext. intros k c Hin w. apply (IH h hm x co c w He).
    apply Hc. apply in_map_iff in Hin. destruct Hin as (c' & E & Hin). injection E as _ ->. exact Hin.
  - revert H. apply fresh_items_ext. intros k c Hin w. apply (IH h hm x co c w He).
    apply Hc. apply in_map_iff in Hin. destruct Hin as (e & E & Hin). injection E as _ <-.
    apply in_map. exact Hin.
  - apply (IH h hm x co c v He); [|exact H]. apply Hc. left. reflexivity.
Qed.

Lemma fresh_shape : forall fuel h h' p, shape_eq h h' -> fresh_hash hl hk fuel h' p = fresh_hash hl hk fuel h p.
Proof.
  induction fuel as [|fuel IH]; intros h h' p Hs; [reflexivity|]. cbn [fresh_hash].
  destruct (Hs p) as (-> & _ & _).
  assert (Hi : forall l acc, fresh_items (fresh_hash hl hk fuel h') acc l = fresh_items (fresh_hash hl hk fuel h) acc l).
  { induction l as [|[k c] l IHl]; intros acc; [reflexivity|]. cbn [fresh_items]. rewrite (IH h h' c Hs).
    destruct (fresh_hash hl hk fuel h c); [apply IHl|reflexivity]. }
  destruct (ncont (h p)); [reflexivity|apply Hi|apply Hi|apply IH, Hs].
Qed.

Lemma links_shape : forall h h', shape_eq h h' -> links h -> links h'.
Proof.
  intros h h' Hs [G1 G2 G3 G4].
  assert (Hn : forall c, is_null h c <-> is_null h' c).
  { intros c. unfold is_null. destruct (Hs c) as (-> & _). tauto. }
  split.
  - intros p c H. rewrite <- Hn. unfold contains in H. destruct (Hs p) as (E & _). rewrite E in H.
    destruct (Hs c) as (_ & _ & ->). apply G1, H.
  - intros p c H. rewrite <- Hn in H. destruct (Hs p) as (-> & _). apply G2, H.
  - intros x. apply (acc_sub (observes h)); [|apply G3]. intros a b H. unfold observes in *.
    destruct (Hs b) as (_ & _ & E). rewrite E in H. exact H.
  - intros x. apply (acc_sub (contains h)); [|apply G4]. intros a b H. unfold contains in *.
    destruct (Hs b) as (E & _). rewrite E in H. exact H.
Qed.

Lemma caches_shape : forall h h', shape_eq h h' ->
  (forall p, ncache (h' p) <> 0%N -> hash_of hl hk h p (ncache (h' p))) -> caches_ok hl hk h'.
Proof.
  intros h h' Hs Hc p H. destruct (Hc p H) as (f & Ef). exists f. rewrite (fresh_shape f h h' p Hs). exact Ef.
Qed.

Lemma edit_reached : forall h hm x co, links h -> audible h x -> edit_rel h hm x co ->
  forall y, above hm x y -> reached hm x y.
Proof.
  intros h hm x co Hg Ha He y Hy. pose proof (g_sub _ (edit_links _ _ _ _ Hg He)) as L1.
  induction Hy as [|y p Hy IH Hin]; [constructor|].
  destruct (Nat.eq_dec p x) as [->|Hne]; [constructor|].
  assert (Hi : ninit (h y) = true).
  { apply (Ha y p); [eapply above_edit; eassumption|]. rewrite (e_other _ _ _ _ He p Hne) in Hin. exact Hin. }
  eapply re_up; [exact IH| |].
  - destruct (e_flags _ _ _ _ He y) as (-> & _). exact Hi.
  - destruct (L1 p y Hin) as [Hn|Ho]; [|exact Ho]. exfalso.
    clear - Hn Hy He. destruct Hy as [|z y Hz Hin'].
    + destruct (e_notnull _ _ _ _ He) as (_ & H). contradiction.
    + unfold is_null in Hn. rewrite Hn in Hin'. destruct Hin'.
Qed.

Lemma edit_good : forall fuel h hm x co h', links h -> caches_ok hl hk h -> audible h x -> edit_rel h hm x co ->
  on_changed fuel hm x = Ok h' -> links h' /\ caches_ok hl hk h'.
Proof.
  intros fuel h hm x co h' Hg Hk Ha He H. apply on_changed_spec in H. destruct H as (S1 & D1 & C1 & R1 & U1).
  pose proof (edit_links _ _ _ _ Hg He) as L.
  split; [eapply links_shape; eassumption|]. apply (caches_shape hm); [exact S1|].
  intros p Hp. assert (Hnr : ~ above hm x p).
  { intros Hab. apply (edit_reached h hm x co Hg Ha He) in Hab. destruct (R1 p Hab) as (E & _). congruence. }
  destruct (C1 p) as [E|E]; [|congruence]. rewrite E in *.
  destruct (e_flags _ _ _ _ He p) as (_ & _ & Ec). rewrite Ec in *.
  destruct (Hk p Hp) as (f & Ef). exists f. eapply fresh_edit; eassumption.
Qed.

(** every initialised chain above the edited object becomes dirty *)
Lemma edit_dirty : forall fuel h hm x co h' y, links h -> edit_rel h hm x co ->
  on_changed fuel hm x = Ok h' -> live_above h x y -> ndirty (h' y) = true.
Proof.
  intros fuel h hm x co h' y Hg He H Hl. apply on_changed_spec in H. destruct H as (S1 & D1 & C1 & R1 & U1).
  assert (Hr : reached hm x y /\ ninit (h y) = true /\ ~ is_null h y).
  { induction Hl as [Hi|y p Hl IH Hin Hi].
    - split; [constructor|]. split; [exact Hi|apply (e_notnull _ _ _ _ He)].
    - destruct IH as (Hr & Hiy & Hny).
      assert (Hnp : ~ is_null h p). { intros E. unfold is_null in E. rewrite E in Hin. destruct Hin. }
      split; [|split; [exact Hi|exact Hnp]].
      destruct (Nat.eq_dec p x) as [->|Hne]; [constructor|].
      eapply re_up; [exact Hr| |].
      + destruct (e_flags _ _ _ _ He y) as (-> & _). exact Hiy.
      + apply (e_obs_old _ _ _ _ He); [exact Hne|]. destruct (g_sub _ Hg p y Hin); [contradiction|assumption]. }
  destruct Hr as (Hr & Hi & _). destruct (R1 y Hr) as (_ & Hd). apply Hd.
  destruct (e_flags _ _ _ _ He y) as (-> & _). exact Hi.
Qed.
End Inv.

(** Every sound call keeps the links and caches right. *)
From Coq Require Import List NArith ZArith Bool PeanoNat Lia Relations.
From Verif.Model Require Import Base SMap Containers Heap.
From Verif.Spec Require Import Heap.
From Verif.Proof Require Import Tac SMap Heap.
Import ListNotations.

(** *** Subscriptions only touch observers *)
Lemma subscribe_flags : forall h c x y, ninit (subscribe h c x y) = ninit (h y) /\ ndirty (subscribe h c x y) = ndirty (h y) /\
  ncache (subscribe h c x y) = ncache (h y) /\ ncont (subscribe h c x y) = ncont (h y).
Proof.
  intros h c x y. unfold subscribe. destruct (ncont (h c)) as [l|l|m|d b] eqn:E; [destruct l|..];
  try (destruct (in_dec Nat.eq_dec x (nobs (h c))));
  try (repeat split; reflexivity);
  unfold upd_node; destruct (Nat.eqb_spec y c) as [->|]; cbn; auto.
Qed.
Lemma subscribe_obs : forall h c x y o,
  In o (nobs (subscribe h c x y)) -> In o (nobs (h y)) \/ (o = x /\ y = c).
Proof.
  intros h c x y o. unfold subscribe.
  assert (H : In o (nobs (upd_node h c (set_obs (h c) (x :: nobs (h c))) y)) -> In o (nobs (h y)) \/ o = x /\ y = c).
  { unfold upd_node. destruct (Nat.eqb_spec y c) as [->|]; [|auto]. cbn. intros [<-|H]; auto. }
  destruct (ncont (h c)) as [l|l|m|d b]; [destruct l|..]; auto;
  destruct (in_dec Nat.eq_dec x (nobs (h c))); auto.
Qed.
Lemma subscribe_keep : forall h c x y o, In o (nobs (h y)) -> In o (nobs (subscribe h c x y)).
Proof.
  intros h c x y o Ho. unfold subscribe.
  assert (H : In o (nobs (upd_node h c (set_obs (h c) (x :: nobs (h c))) y))).
  { unfold upd_node. destruct (Nat.eqb_spec y c) as [->|]; cbn; auto. }
  destruct (ncont (h c)) as [l|l|m|d b]; [destruct l|..]; auto;
  destruct (in_dec Nat.eq_dec x (nobs (h c))); auto.
Qed.
Lemma subscribe_in : forall h c x, is_null h c \/ In x (nobs (subscribe h c x c)).
Proof.
  intros h c x. unfold subscribe, is_null.
  assert (H : In x (nobs (upd_node h c (set_obs (h c) (x :: nobs (h c))) c))) by (rewrite upd_same; left; reflexivity).
  destruct (ncont (h c)) as [l|l|m|d b]; [destruct l|..]; auto;
  destruct (in_dec Nat.eq_dec x (nobs (h c))); auto.
Qed.

Lemma unsubscribe_flags : forall h c x y, ninit (unsubscribe h c x y) = ninit (h y) /\ ndirty (unsubscribe h c x y) = ndirty (h y) /\
  ncache (unsubscribe h c x y) = ncache (h y) /\ ncont (unsubscribe h c x y) = ncont (h y).
Proof.
  intros h c x y. unfold unsubscribe, upd_node. destruct (Nat.eqb_spec y c) as [->|]; cbn; auto.
Qed.
Lemma unsubscribe_obs : forall h c x y o,
  In o (nobs (unsubscribe h c x y)) <-> In o (nobs (h y)) /\ ~ (o = x /\ y = c).
Proof.
  intros h c x y o. unfold unsubscribe, upd_node. destruct (Nat.eqb_spec y c) as [->|Hne]; cbn.
  - split.
    + intros H. apply in_remove in H. tauto.
    + intros (H & Hn). apply in_in_remove; [|exact H]. intros ->. apply Hn. auto.
  - tauto.
Qed.

Lemma unsubscribe_all : forall l h x,
  let h1 := fold_left (fun h' c => unsubscribe h' c x) l h in
  (forall y, ninit (h1 y) = ninit (h y) /\ ndirty (h1 y) = ndirty (h y) /\ ncache (h1 y) = ncache (h y) /\ ncont (h1 y) = ncont (h y)) /\
  (forall y o, In o (nobs (h1 y)) -> In o (nobs (h y))) /\
  (forall y o, o <> x -> In o (nobs (h y)) -> In o (nobs (h1 y))).
Proof.
  induction l as [|c l IH]; intros h x; cbn [fold_left]; cbv zeta; [repeat split; auto|].
  destruct (IH (unsubscribe h c x) x) as (H1 & H2 & H3). split; [|split].
  - intros y. destruct (H1 y) as (?&?&?&?), (unsubscribe_flags h c x y) as (?&?&?&?). repeat split; congruence.
  - intros y o Ho. apply H2 in Ho. apply unsubscribe_obs in Ho. tauto.
  - intros y o Hne Ho. apply H3; [exact Hne|]. apply unsubscribe_obs. split; [exact Ho|]. intros (-> & _). congruence.
Qed.

(** *** [edit_rel] for the shapes of edits *)
Lemma not_null_arr : forall h x l, ncont (h x) = CArr l -> ~ is_null h x.
Proof. intros h x l E. unfold is_null. congruence. Qed.

(** no link changes *)
Lemma rel_value : forall h x c, ~ is_null h x -> c <> CLeaf LNull -> children c = children (ncont (h x)) -> links h ->
  edit_rel h (upd_node h x (set_cont (h x) c)) x None.
Proof.
  intros h x c Hn Hc Hch [G1 G2 G3 G4]. split.
  - intros y. unfold upd_node. destruct (Nat.eqb_spec y x) as [->|]; cbn; auto.
  - intros y Hne. rewrite upd_other by exact Hne. reflexivity.
  - split; [exact Hn|]. unfold is_null. rewrite upd_same. exact Hc.
  - intros y o. unfold upd_node. destruct (Nat.eqb_spec y x) as [->|]; cbn; auto.
  - intros y o _. unfold upd_node. destruct (Nat.eqb_spec y x) as [->|]; cbn; auto.
  - intros d. unfold contains. rewrite upd_same. cbn [ncont set_cont]. rewrite Hch. intros Hd. destruct (G1 x d Hd) as [H|H]; [auto|].
    right. unfold upd_node. destruct (Nat.eqb_spec d x) as [->|]; exact H.
  - intros d. unfold contains. rewrite upd_same. cbn [ncont set_cont]. rewrite Hch. auto.
  - intros d Hd. rewrite upd_same. cbn [ncont set_cont]. rewrite Hch. apply G2, Hd.
  - discriminate.
Qed.

(** [c] is attached; other children come from before *)
Lemma rel_attach : forall h x c cont, links h -> ~ is_null h x -> cont <> CLeaf LNull ->
  may_attach h x c ->
  (forall d, In d (children cont) -> In d (children (ncont (h x))) \/ d = c) ->
  (forall d, d <> c -> (count_occ Nat.eq_dec (children cont) d <= count_occ Nat.eq_dec (children (ncont (h x))) d)%nat) ->
  (count_occ Nat.eq_dec (children cont) c <= S (count_occ Nat.eq_dec (children (ncont (h x))) c))%nat ->
  edit_rel h (subscribe (upd_node h x (set_cont (h x) cont)) c x) x (Some c).
Proof.
  intros h x c cont [G1 G2 G3 G4] Hx Hcont (Hnt & Hfresh) Hch Hcnt1 Hcnt2.
  set (h0 := upd_node h x (set_cont (h x) cont)).
  assert (F0 : forall y, ninit (h0 y) = ninit (h y) /\ ndirty (h0 y) = ndirty (h y) /\ ncache (h0 y) = ncache (h y) /\ nobs (h0 y) = nobs (h y)).
  { intros y. unfold h0, upd_node. destruct (Nat.eqb_spec y x) as [->|]; cbn; auto. }
  assert (E0 : ncont (h0 x) = cont) by (unfold h0; rewrite upd_same; reflexivity).
  assert (Hcx : c <> x). { intros ->. apply Hnt. constructor. }
  assert (Ec : ncont (h0 c) = ncont (h c)) by (unfold h0; rewrite upd_other by exact Hcx; reflexivity).
  split.
  - intros y. destruct (subscribe_flags h0 c x y) as (?&?&?&?), (F0 y) as (?&?&?&?). repeat split; congruence.
  - intros y Hne. destruct (subscribe_flags h0 c x y) as (_&_&_&->). unfold h0. rewrite upd_other by exact Hne. reflexivity.
  - split; [exact Hx|]. unfold is_null. destruct (subscribe_flags h0 c x x) as (_&_&_&->). rewrite E0. exact Hcont.
  - intros y o Ho. apply subscribe_obs in Ho. destruct (F0 y) as (_&_&_&E). rewrite E in Ho.
    destruct Ho as [H|(-> & ->)]; [left|right]; auto.
  - intros y o _ Ho. apply subscribe_keep. destruct (F0 y) as (_&_&_&->). exact Ho.
  - intros d Hd. unfold contains in Hd. destruct (subscribe_flags h0 c x x) as (_&_&_&E). rewrite E, E0 in Hd.
    destruct (Nat.eq_dec d c) as [->|Hne].
    + destruct (subscribe_in h0 c x) as [H|H]; [left|right; exact H]. unfold is_null in *. congruence.
    + destruct (Hch d Hd) as [H|H]; [|congruence]. destruct (G1 x d H) as [H'|H']; [left; exact H'|right].
      apply subscribe_keep. destruct (F0 d) as (_&_&_&->). exact H'.
  - intros d Hd. unfold contains in *. destruct (subscribe_flags h0 c x x) as (_&_&_&E). rewrite E, E0 in Hd.
    destruct (Hch d Hd) as [H| ->]; auto.
  - intros d Hd. destruct (subscribe_flags h0 c x x) as (_&_&_&->). rewrite E0.
    destruct (Nat.eq_dec d c) as [->|Hne].
    + destruct Hfresh as [H|H]; [contradiction|].
      apply (count_occ_not_In Nat.eq_dec) in H. rewrite H in Hcnt2. exact Hcnt2.
    + specialize (Hcnt1 d Hne). specialize (G2 x d Hd). lia.
  - intros d E. injection E as <-. exact Hnt.
Qed.

(** [c] is detached *)
Lemma rel_detach : forall h x c cont, links h -> ~ is_null h x -> cont <> CLeaf LNull ->
  In c (children (ncont (h x))) ->
  (forall d, In d (children cont) -> In d (children (ncont (h x)))) ->
  (forall d, (count_occ Nat.eq_dec (children cont) d <= count_occ Nat.eq_dec (children (ncont (h x))) d)%nat) ->
  (count_occ Nat.eq_dec (children cont) c < count_occ Nat.eq_dec (children (ncont (h x))) c)%nat ->
  let h1 := unsubscribe h c x in
  edit_rel h (upd_node h1 x (set_cont (h1 x) cont)) x None.
Proof.
  intros h x c cont [G1 G2 G3 G4] Hx Hcont Hin Hch Hcnt Hlt h1.
  assert (F : forall y, let hm := upd_node h1 x (set_cont (h1 x) cont) in
            ninit (hm y) = ninit (h y) /\ ndirty (hm y) = ndirty (h y) /\ ncache (hm y) = ncache (h y) /\ nobs (hm y) = nobs (h1 y)).
  { intros y. cbv zeta. destruct (unsubscribe_flags h c x y) as (?&?&?&?). unfold h1.
    unfold upd_node. destruct (Nat.eqb_spec y x) as [->|]; cbn; auto. }
  cbv zeta in F. split.
  - intros y. destruct (F y) as (?&?&?&?). auto.
  - intros y Hne. rewrite upd_other by exact Hne. apply (unsubscribe_flags h c x y).
  - split; [exact Hx|]. unfold is_null. rewrite upd_same. exact Hcont.
  - intros y o Ho. destruct (F y) as (_&_&_&E). rewrite E in Ho. apply unsubscribe_obs in Ho. tauto.
  - intros y o Hne Ho. destruct (F y) as (_&_&_&->). apply unsubscribe_obs. split; [exact Ho|]. intros (-> & _). congruence.
  - intros d Hd. unfold contains in Hd. rewrite upd_same in Hd. cbn [ncont set_cont] in Hd.
    destruct (G1 x d (Hch d Hd)) as [H|H]; [left; exact H|].
    destruct (Nat.eq_dec d c) as [->|Hne].
    + left. destruct (ncont (h c)) as [[]| | |] eqn:E; try exact E; exfalso;
      (assert (Hn : ~ is_null h c) by (unfold is_null; congruence));
      specialize (G2 x c Hn); apply (count_occ_In Nat.eq_dec) in Hd; lia.
    + right. destruct (F d) as (_&_&_&->). apply unsubscribe_obs. split; [exact H|]. intros (_ & ->). congruence.
  - intros d Hd. unfold contains in *. rewrite upd_same in Hd. left. apply Hch, Hd.
  - intros d Hd. rewrite upd_same. cbn [ncont set_cont]. specialize (Hcnt d). specialize (G2 x d Hd). lia.
  - discriminate.
Qed.

(** all are detached *)
Lemma rel_clear : forall h x cont l, links h -> ~ is_null h x -> cont <> CLeaf LNull -> children cont = [] ->
  let h1 := fold_left (fun h' c => unsubscribe h' c x) l h in
  edit_rel h (upd_node h1 x (set_cont (h1 x) cont)) x None.
Proof.
  intros h x cont l [G1 G2 G3 G4] Hx Hcont Hch h1.
  destruct (unsubscribe_all l h x) as (U1 & U2 & U3). fold h1 in U1, U2, U3.
  assert (F : forall y, let hm := upd_node h1 x (set_cont (h1 x) cont) in
            ninit (hm y) = ninit (h y) /\ ndirty (hm y) = ndirty (h y) /\ ncache (hm y) = ncache (h y) /\ nobs (hm y) = nobs (h1 y)).
  { intros y. cbv zeta. destruct (U1 y) as (?&?&?&?).
    unfold upd_node. destruct (Nat.eqb_spec y x) as [->|]; cbn; auto. }
  cbv zeta in F. split.
  - intros y. destruct (F y) as (?&?&?&?). auto.
  - intros y Hne. rewrite upd_other by exact Hne. apply (U1 y).
  - split; [exact Hx|]. unfold is_null. rewrite upd_same. exact Hcont.
  - intros y o Ho. destruct (F y) as (_&_&_&E). rewrite E in Ho. left. apply U2, Ho.
  - intros y o Hne Ho. destruct (F y) as (_&_&_&->). apply U3; assumption.
  - intros d Hd. unfold contains in Hd. rewrite upd_same in Hd. cbn [ncont set_cont] in Hd. rewrite Hch in Hd. destruct Hd.
  - intros d Hd. unfold contains in Hd. rewrite upd_same in Hd. cbn [ncont set_cont] in Hd. rewrite Hch in Hd. destruct Hd.
  - intros d Hd. rewrite upd_same. cbn [ncont set_cont]. rewrite Hch. cbn. lia.
  - discriminate.
Qed.

(** stream header replaced *)
Lemma rel_header : forall h x old c b b', links h -> ncont (h x) = CStream old b -> may_attach h x c ->
  let h1 := subscribe (unsubscribe h old x) c x in
  edit_rel h (upd_node h1 x (set_cont (h1 x) (CStream c b'))) x (Some c).
Proof.
  intros h x old c b b' [G1 G2 G3 G4] Hx (Hnt & Hfresh) h1.
  assert (Hcx : c <> x). { intros ->. apply Hnt. constructor. }
  assert (F : forall y, let hm := upd_node h1 x (set_cont (h1 x) (CStream c b')) in
            ninit (hm y) = ninit (h y) /\ ndirty (hm y) = ndirty (h y) /\ ncache (hm y) = ncache (h y) /\ nobs (hm y) = nobs (h1 y)).
  { intros y. cbv zeta. destruct (unsubscribe_flags h old x y) as (?&?&?&?), (subscribe_flags (unsubscribe h old x) c x y) as (?&?&?&?).
    unfold h1. unfold upd_node. destruct (Nat.eqb_spec y x) as [->|]; cbn; repeat split; congruence. }
  cbv zeta in F. split.
  - intros y. destruct (F y) as (?&?&?&?). auto.
  - intros y Hne. rewrite upd_other by exact Hne.
    destruct (unsubscribe_flags h old x y) as (?&?&?&?), (subscribe_flags (unsubscribe h old x) c x y) as (?&?&?&?). unfold h1. congruence.
  - split; unfold is_null; [congruence|]. rewrite upd_same. discriminate.
  - intros y o Ho. destruct (F y) as (_&_&_&E). rewrite E in Ho. apply subscribe_obs in Ho.
    destruct Ho as [Ho|(-> & ->)]; [|auto]. apply unsubscribe_obs in Ho. tauto.
  - intros y o Hne Ho. destruct (F y) as (_&_&_&->). apply subscribe_keep. apply unsubscribe_obs. split; [exact Ho|].
    intros (-> & _). congruence.
  - intros d Hd. unfold contains in Hd. rewrite upd_same in Hd. destruct Hd as [<-|[]].
    destruct (subscribe_in (unsubscribe h old x) c x) as [H|H].
    + left. unfold is_null in *. destruct (unsubscribe_flags h old x c) as (_&_&_&E). congruence.
    + right. destruct (F c) as (_&_&_&->). exact H.
  - intros d Hd. unfold contains in Hd. rewrite upd_same in Hd. destruct Hd as [<-|[]]. auto.
  - intros d Hd. rewrite upd_same. cbn. destruct (Nat.eq_dec c d); lia.
  - intros d E. injection E as <-. exact Hnt.
Qed.

(** *** Children of the new values *)
Lemma count_app1 : forall l (c d : nat), count_occ Nat.eq_dec (l ++ [c]) d =
  (count_occ Nat.eq_dec l d + (if Nat.eq_dec c d then 1 else 0))%nat.
Proof. intros. rewrite count_occ_app. cbn. destruct (Nat.eq_dec c d); lia. Qed.

Lemma count_split : forall l i (d : nat), (count_occ Nat.eq_dec (firstn i l) d + count_occ Nat.eq_dec (skipn i l) d =
  count_occ Nat.eq_dec l d)%nat.
Proof. intros. rewrite <- count_occ_app, firstn_skipn. reflexivity. Qed.

Lemma skipn_nth : forall (l : list nat) i c, nth_error l i = Some c -> skipn i l = c :: skipn (S i) l.
Proof.
  induction l as [|a l IH]; intros i c H; [destruct i; discriminate|].
  destruct i as [|i]; cbn in *; [injection H as ->; reflexivity|]. apply IH, H.
Qed.

Lemma sm_insert_children : forall (m : smap nat) k c,
  (forall d, In d (map snd (sm_insert k c m)) -> In d (map snd m) \/ d = c) /\
  (forall d, d <> c -> (count_occ Nat.eq_dec (map snd (sm_insert k c m)) d <= count_occ Nat.eq_dec (map snd m) d)%nat) /\
  (count_occ Nat.eq_dec (map snd (sm_insert k c m)) c <= S (count_occ Nat.eq_dec (map snd m) c))%nat.
Proof.
  induction m as [|[k' v'] m IH]; intros k c; cbn [sm_insert map snd].
  - split; [|split].
    + intros d [<-|[]]. auto.
    + intros d Hne. cbn. destruct (Nat.eq_dec c d); [congruence|lia].
    + cbn. destruct (Nat.eq_dec c c); lia.
  - destruct (IH k c) as (H1 & H2 & H3). destruct (buffer_ltb k k').
    + cbn [map snd]. split; [|split].
      * intros d [<-|H]; auto.
      * intros d Hne. cbn [count_occ]. destruct (Nat.eq_dec c d); [congruence|]. lia.
      * cbn [count_occ]. destruct (Nat.eq_dec c c); [|congruence]. lia.
    + destruct (buffer_ltb k' k); cbn [map snd].
      * split; [|split].
        -- intros d [<-|H]; [left; left; reflexivity|]. destruct (H1 d H); [left; right|right]; assumption.
        -- intros d Hne. cbn [count_occ]. specialize (H2 d Hne). destruct (Nat.eq_dec v' d); lia.
        -- cbn [count_occ]. destruct (Nat.eq_dec v' c); lia.
      * split; [|split]; [auto|intros; lia|lia].
Qed.

Lemma sm_remove_children : forall (m : smap nat) k c, sm_find k m = Some c ->
  In c (map snd m) /\
  (forall d, In d (map snd (sm_remove k m)) -> In d (map snd m)) /\
  (forall d, (count_occ Nat.eq_dec (map snd (sm_remove k m)) d <= count_occ Nat.eq_dec (map snd m) d)%nat) /\
  (count_occ Nat.eq_dec (map snd (sm_remove k m)) c < count_occ Nat.eq_dec (map snd m) c)%nat.
Proof.
  induction m as [|[k' v'] m IH]; intros k c Hf; cbn [sm_find sm_remove] in *; [discriminate|].
  destruct (buffer_ltb k k') eqn:E1; [discriminate|]. destruct (buffer_ltb k' k) eqn:E2.
  - destruct (IH k c Hf) as (H0 & H1 & H2 & H3). cbn [map snd]. split; [right; exact H0|]. split; [|split].
    + intros d [<-|H]; [left; reflexivity|right; apply H1, H].
    + intros d. cbn [count_occ]. specialize (H2 d). destruct (Nat.eq_dec v' d); lia.
    + cbn [count_occ]. destruct (Nat.eq_dec v' c); lia.
  - injection Hf as ->. cbn [map snd]. split; [left; reflexivity|]. split; [|split].
    + intros d H. right. exact H.
    + intros d. cbn [count_occ]. destruct (Nat.eq_dec c d); lia.
    + cbn [count_occ]. destruct (Nat.eq_dec c c); [lia|congruence].
Qed.

(** *** Every editing call is an edit followed by a notification, or changes nothing *)
Definition idle (h : heap) (r : res heap) : Prop := r = Ok h \/ exists e, r = Throw e \/ r = Undef.
Lemma step_shape : forall hl hk h o x, links h -> sound_call h o -> edited o = Some x ->
  (exists r, idle h r /\ forall fuel, heap_step hl hk fuel h o = r) \/
  exists hm co, audible h x /\ edit_rel h hm x co /\ forall fuel, heap_step hl hk fuel h o = on_changed fuel hm x.
Proof.
  intros hl hk h o x Hg Hs Hx.
  destruct o as [y b|y l|y z|y v|y c|y i c|y i c|y i|y|y k c ow|y k|y z|y|y c|y b|y]; cbn [edited] in Hx; try discriminate;
  injection Hx as ->; cbn [sound_call heap_step] in *; try contradiction.
  - (* set_leaf *)
    right. destruct Hs as (Ha & Hk). exists (upd_node h x (set_cont (h x) (CLeaf l))), None.
    split; [exact Ha|]. split; [|reflexivity].
    apply rel_value.
    + unfold is_null. intros E. rewrite E in Hk. destruct l; destruct Hk.
    + intros E. injection E as ->. destruct (ncont (h x)) as [[]| | |]; destruct Hk.
    + destruct (ncont (h x)) as [l0| | |]; [reflexivity|destruct l; destruct Hk..].
    + exact Hg.
  - (* set_string *)
    right. destruct Hs as (Ha & v0 & E). unfold set_string. rewrite E.
    exists (upd_node h x (set_cont (h x) (CLeaf (LStr v true)))), None. split; [exact Ha|]. split; [|reflexivity].
    apply rel_value; [unfold is_null; congruence|discriminate|rewrite E; reflexivity|exact Hg].
  - (* append *)
    destruct Hs as (Ha & Hm). unfold array_append. destruct (ncont (h x)) as [|l| |] eqn:E; try (left; exists Undef; split; [right; exists EGeneral; auto|reflexivity]).
    right. exists (subscribe (upd_node h x (set_cont (h x) (CArr (arr_append l c)))) c x), (Some c).
    split; [exact Ha|]. split; [|reflexivity]. apply rel_attach; try assumption; try discriminate.
    + unfold is_null; congruence.
    + rewrite E. cbn [children]. unfold arr_append. intros d Hd. apply in_app_iff in Hd. destruct Hd as [?|[<-|[]]]; auto.
    + rewrite E. cbn [children]. unfold arr_append. intros d Hne. rewrite count_app1. destruct (Nat.eq_dec c d); [congruence|lia].
    + rewrite E. cbn [children]. unfold arr_append. rewrite count_app1. destruct (Nat.eq_dec c c); lia.
  - (* insert *)
    destruct Hs as (Ha & Hm). unfold array_insert. destruct (ncont (h x)) as [|l| |] eqn:E; try (left; exists Undef; split; [right; exists EGeneral; auto|reflexivity]).
    unfold arr_insert. destruct (arr_size l <? i)%N; [left; eexists; split; [right; eexists; left; reflexivity|reflexivity]|]. cbn [rbind]. right.
    eexists _, (Some c). split; [exact Ha|]. split; [|reflexivity].
    assert (Hcnt : forall d, count_occ Nat.eq_dec (firstn (N.to_nat i) l ++ c :: skipn (N.to_nat i) l) d =
                     (count_occ Nat.eq_dec l d + (if Nat.eq_dec c d then 1 else 0))%nat).
    { intros d. rewrite count_occ_app. cbn [count_occ]. rewrite <- (count_split l (N.to_nat i) d). destruct (Nat.eq_dec c d); lia. }
    apply rel_attach; try assumption; try discriminate.
    + unfold is_null; congruence.
    + rewrite E. cbn [children]. intros d Hd. apply in_app_iff in Hd. destruct Hd as [Hd|[<-|Hd]]; [left|auto|left].
      * rewrite <- (firstn_skipn (N.to_nat i) l). apply in_app_iff. auto.
      * rewrite <- (firstn_skipn (N.to_nat i) l). apply in_app_iff. auto.
    + rewrite E. cbn [children]. intros d Hne. rewrite Hcnt. destruct (Nat.eq_dec c d); [congruence|lia].
    + rewrite E. cbn [children]. rewrite Hcnt. destruct (Nat.eq_dec c c); lia.
  - (* set *)
    destruct Hs as (Ha & Hm). unfold array_set. destruct (ncont (h x)) as [|l| |] eqn:E; try (left; exists Undef; split; [right; exists EGeneral; auto|reflexivity]).
    unfold arr_set. destruct (arr_size l <=? i)%N eqn:Ei; [left; eexists; split; [right; eexists; left; reflexivity|reflexivity]|]. right.
    exists (subscribe (upd_node h x (set_cont (h x) (CArr (firstn (N.to_nat i) l ++ c :: skipn (S (N.to_nat i)) l)))) c x), (Some c).
    split; [exact Ha|]. split; [|reflexivity].
    unfold arr_size in Ei.
    destruct (nth_error l (N.to_nat i)) as [o|] eqn:En; [|apply nth_error_None in En; lia].
    assert (Hsk := skipn_nth l _ o En).
    assert (Hcnt : forall d, (count_occ Nat.eq_dec (firstn (N.to_nat i) l ++ c :: skipn (S (N.to_nat i)) l) d + (if Nat.eq_dec o d then 1 else 0) =
                     count_occ Nat.eq_dec l d + (if Nat.eq_dec c d then 1 else 0))%nat).
    { intros d. rewrite count_occ_app. cbn [count_occ]. rewrite <- (count_split l (N.to_nat i) d). rewrite Hsk. cbn [count_occ].
      destruct (Nat.eq_dec c d), (Nat.eq_dec o d); lia. }
    apply rel_attach; try assumption; try discriminate.
    + unfold is_null; congruence.
    + rewrite E. cbn [children]. intros d Hd. apply in_app_iff in Hd. destruct Hd as [Hd|[<-|Hd]]; [left|auto|left].
      * rewrite <- (firstn_skipn (N.to_nat i) l). apply in_app_iff. auto.
      * rewrite <- (firstn_skipn (N.to_nat i) l), Hsk. apply in_app_iff. right. right. exact Hd.
    + rewrite E. cbn [children]. intros d Hne. specialize (Hcnt d). revert Hcnt. destruct (Nat.eq_dec c d); [congruence|]. destruct (Nat.eq_dec o d); lia.
    + rewrite E. cbn [children]. specialize (Hcnt c). revert Hcnt. destruct (Nat.eq_dec c c); [|congruence]. destruct (Nat.eq_dec o c); lia.
  - (* remove *)
    unfold array_remove. destruct (ncont (h x)) as [|l| |] eqn:E; try (left; exists Undef; split; [right; exists EGeneral; auto|reflexivity]).
    destruct (nth_error l (N.to_nat i)) as [c|] eqn:En; [|left; exists (Ok h); split; [left; reflexivity|reflexivity]]. right.
    exists (upd_node (unsubscribe h c x) x (set_cont (unsubscribe h c x x) (CArr (fst (arr_remove l i))))), None.
    split; [exact Hs|]. split; [|reflexivity].
    assert (Hsk := skipn_nth l _ c En).
    assert (Er : fst (arr_remove l i) = firstn (N.to_nat i) l ++ skipn (S (N.to_nat i)) l).
    { unfold arr_remove, arr_size. destruct (N.leb_spec (N.of_nat (length l)) i) as [Hi|Hi]; [|reflexivity].
      exfalso. assert (H0 : nth_error l (N.to_nat i) <> None) by congruence. apply nth_error_Some in H0. lia. }
    assert (Hcnt : forall d, (count_occ Nat.eq_dec (fst (arr_remove l i)) d + (if Nat.eq_dec c d then 1 else 0) = count_occ Nat.eq_dec l d)%nat).
    { intros d. rewrite Er, count_occ_app. rewrite <- (count_split l (N.to_nat i) d). rewrite Hsk. cbn [count_occ].
      destruct (Nat.eq_dec c d); lia. }
    apply rel_detach; try assumption; try discriminate.
    + unfold is_null; congruence.
    + rewrite E. cbn [children]. eapply nth_error_In, En.
    + rewrite E. cbn [children]. intros d Hd. rewrite Er in Hd. apply in_app_iff in Hd.
      rewrite <- (firstn_skipn (N.to_nat i) l), Hsk. apply in_app_iff. destruct Hd; [left|right; right]; assumption.
    + rewrite E. cbn [children]. intros d. specialize (Hcnt d). revert Hcnt. destruct (Nat.eq_dec c d); lia.
    + rewrite E. cbn [children]. specialize (Hcnt c). revert Hcnt. destruct (Nat.eq_dec c c); [lia|congruence].
  - (* dict insert *)
    destruct Hs as (Ha & Hm). unfold dictionary_insert. destruct (ncont (h x)) as [| |m|] eqn:E; try (left; exists Undef; split; [right; exists EGeneral; auto|reflexivity]).
    unfold dict_insert. destruct (negb ow && sm_contains k m); [left; eexists; split; [right; eexists; left; reflexivity|reflexivity]|]. right.
    exists (subscribe (upd_node h x (set_cont (h x) (CDict (sm_insert k c m)))) c x), (Some c).
    split; [exact Ha|]. split; [|reflexivity].
    destruct (sm_insert_children m k c) as (C1 & C2 & C3).
    apply rel_attach; try assumption; try discriminate.
    + unfold is_null; congruence.
    + rewrite E. exact C1.
    + rewrite E. exact C2.
    + rewrite E. exact C3.
  - (* dict remove *)
    unfold dictionary_remove. destruct (ncont (h x)) as [| |m|] eqn:E; try (left; exists Undef; split; [right; exists EGeneral; auto|reflexivity]).
    unfold dict_try_find. destruct (sm_find k m) as [c|] eqn:Ef; [|left; exists (Ok h); split; [left; reflexivity|reflexivity]]. right.
    exists (upd_node (unsubscribe h c x) x (set_cont (unsubscribe h c x x) (CDict (fst (dict_remove m k))))), None.
    split; [exact Hs|]. split; [|reflexivity].
    destruct (sm_remove_children m k c Ef) as (C0 & C1 & C2 & C3).
    unfold dict_remove. rewrite Ef. cbn [fst].
    apply rel_detach; try assumption; try discriminate.
    + unfold is_null; congruence.
    + rewrite E. exact C0.
    + rewrite E. exact C1.
    + rewrite E. exact C2.
    + rewrite E. exact C3.
  - (* dict clear *)
    unfold dictionary_clear. destruct (ncont (h x)) as [| |m|] eqn:E; try (left; exists Undef; split; [right; exists EGeneral; auto|reflexivity]).
    right. eexists _, None. split; [exact Hs|]. split; [|reflexivity].
    apply rel_clear; [exact Hg|unfold is_null; congruence|discriminate|reflexivity].
  - (* stream header *)
    destruct Hs as (Ha & Hm). unfold stream_set_header. destruct (ncont (h x)) as [| | |old b] eqn:E; try (left; exists Undef; split; [right; exists EGeneral; auto|reflexivity]).
    right. eexists _, (Some c). split; [exact Ha|]. split; [|reflexivity].
    eapply rel_header; eassumption.
  - (* stream body *)
    unfold stream_set_body. destruct (ncont (h x)) as [| | |c b0] eqn:E; try (left; exists Undef; split; [right; exists EGeneral; auto|reflexivity]).
    right. eexists _, None. split; [exact Hs|]. split; [|reflexivity].
    apply rel_value; [unfold is_null; congruence|discriminate|rewrite E; reflexivity|exact Hg].
Qed.

Lemma step_edit : forall hl hk fuel h o h' x, links h -> sound_call h o -> edited o = Some x -> heap_step hl hk fuel h o = Ok h' ->
  h' = h \/ exists hm co, audible h x /\ edit_rel h hm x co /\ on_changed fuel hm x = Ok h'.
Proof.
  intros hl hk fuel h o h' x Hg Hs Hx H.
  destruct (step_shape hl hk h o x Hg Hs Hx) as [(r & Hi & E)|(hm & co & Ha & He & E)]; rewrite E in H.
  - left. destruct Hi as [->|(e & [->| ->])]; congruence.
  - right. exists hm, co. auto.
Qed.

(** *** SetInitialized only touches that flag *)
Definition only_init (h h' : heap) : Prop := forall y, ncont (h' y) = ncont (h y) /\ ndirty (h' y) = ndirty (h y) /\
  ncache (h' y) = ncache (h y) /\ nobs (h' y) = nobs (h y).
Lemma only_init_trans : forall a b c, only_init a b -> only_init b c -> only_init a c.
Proof. intros a b c H1 H2 y. destruct (H1 y) as (?&?&?&?), (H2 y) as (?&?&?&?). repeat split; congruence. Qed.

Lemma set_initialized_only : forall fuel h x b h', set_initialized fuel h x b = Ok h' -> only_init h h'.
Proof.
  induction fuel as [|fuel IH]; intros h x b h' H; [discriminate|]. cbn [set_initialized] in H.
  assert (Hfold : forall l ha hb, fold_left (fun (acc : res heap) c => do h' <- acc;; set_initialized fuel h' c b) l (Ok ha) = Ok hb -> only_init ha hb).
  { induction l as [|c l IHl]; intros ha hb Hf.
    - injection Hf as <-. intros y. auto.
    - cbn [fold_left rbind] in Hf. destruct (set_initialized fuel ha c b) as [hc| | |] eqn:E.
      2-4: exfalso; clear - Hf; induction l; cbn in Hf; [discriminate|apply IHl; exact Hf].
      apply IH in E. apply IHl in Hf. eapply only_init_trans; eassumption. }
  apply Hfold in H. eapply only_init_trans; [|exact H].
  intros y. unfold upd_node. destruct (Nat.eqb_spec y x) as [->|]; cbn; auto.
Qed.

(** *** Hashing *)
(** Same values up to decoding of strings, same flags and observers; caches may differ. *)
Definition same_value (a b : content) : Prop :=
  a = b \/ exists s d d', a = CLeaf (LStr s d) /\ b = CLeaf (LStr s d').
Definition similar (h h' : heap) : Prop := forall y, same_value (ncont (h y)) (ncont (h' y)) /\ ninit (h' y) = ninit (h y) /\
  ndirty (h' y) = ndirty (h y) /\ nobs (h' y) = nobs (h y).
Lemma same_value_sym : forall a b, same_value a b -> same_value b a.
Proof. intros a b [->|(s&d&d'&->&->)]; [left; reflexivity|right; eauto]. Qed.
Lemma same_value_trans : forall a b c, same_value a b -> same_value b c -> same_value a c.
Proof.
  intros a b c [->|(s&d&d'&->&->)] H; [exact H|]. destruct H as [<-|(s2&d2&d2'&E&->)]; right; [eauto|].
  injection E as <- <-. eauto.
Qed.
Lemma similar_refl : forall h, similar h h.
Proof. intros h y. split; [left|]; auto. Qed.
Lemma similar_sym : forall a b, similar a b -> similar b a.
Proof. intros a b H y. destruct (H y) as (H1&?&?&?). split; [apply same_value_sym, H1|]. auto. Qed.
Lemma similar_trans : forall a b c, similar a b -> similar b c -> similar a c.
Proof.
  intros a b c H1 H2 y. destruct (H1 y) as (V1&?&?&?), (H2 y) as (V2&?&?&?).
  split; [eapply same_value_trans; eassumption|]. repeat split; congruence.
Qed.
Lemma similar_children : forall a b, same_value a b -> children a = children b.
Proof. intros a b [->|(s&d&d'&->&->)]; reflexivity. Qed.
Lemma similar_null : forall h h' c, similar h h' -> (is_null h c <-> is_null h' c).
Proof.
  intros h h' c Hs. destruct (Hs c) as (V & _). unfold is_null.
  destruct V as [->|(s&d&d'&->&->)]; [tauto|]. split; discriminate.
Qed.

Section Inv.
Variable hl : leaf -> N.
Variable hk : bytes -> N.

Lemma fresh_similar : forall fuel h h' p, similar h h' -> fresh_hash hl hk fuel h' p = fresh_hash hl hk fuel h p.
Proof.
  induction fuel as [|fuel IH]; intros h h' p Hs; [reflexivity|]. cbn [fresh_hash].
  assert (Hi : forall l acc, fresh_items (fresh_hash hl hk fuel h') acc l = fresh_items (fresh_hash hl hk fuel h) acc l).
  { induction l as [|[k c] l IHl]; intros acc; [reflexivity|]. cbn [fresh_items]. rewrite (IH h h' c Hs).
    destruct (fresh_hash hl hk fuel h c); [apply IHl|reflexivity]. }
  destruct (Hs p) as (V & _). destruct V as [<-|(s&d&d'&->&->)]; [|reflexivity].
  destruct (ncont (h p)); [reflexivity|apply Hi|apply Hi|apply IH, Hs].
Qed.

Lemma links_similar : forall h h', similar h h' -> links h -> links h'.
Proof.
  intros h h' Hs [G1 G2 G3 G4]. split.
  - intros p c H. rewrite <- (similar_null h h' c Hs). unfold contains in H. destruct (Hs p) as (V & _).
    rewrite <- (similar_children _ _ V) in H. destruct (Hs c) as (_&_&_&->). apply G1, H.
  - intros p c H. rewrite <- (similar_null h h' c Hs) in H. destruct (Hs p) as (V & _).
    rewrite <- (similar_children _ _ V). apply G2, H.
  - intros x. apply (acc_sub (observes h)); [|apply G3]. intros a b H. unfold observes in *.
    destruct (Hs b) as (_&_&_&E). rewrite E in H. exact H.
  - intros x. apply (acc_sub (contains h)); [|apply G4]. intros a b H. unfold contains in *.
    destruct (Hs b) as (V & _). rewrite <- (similar_children _ _ V) in H. exact H.
Qed.

Lemma fresh_mono : forall fuel fuel' h p v, (fuel <= fuel')%nat -> fresh_hash hl hk fuel h p = Some v -> fresh_hash hl hk fuel' h p = Some v.
Proof.
  induction fuel as [|fuel IH]; intros fuel' h p v Hle H; [discriminate|].
  destruct fuel' as [|fuel']; [lia|]. cbn [fresh_hash] in *.
  assert (Hc : forall c w, fresh_hash hl hk fuel h c = Some w -> fresh_hash hl hk fuel' h c = Some w).
  { intros c w. apply IH. lia. }
  destruct (ncont (h p)) as [l|l|m|c b]; [exact H| | |apply Hc, H].
  - revert H. apply fresh_items_ext. intros k c _ w. apply Hc.
  - revert H. apply fresh_items_ext. intros k c _ w. apply Hc.
Qed.

Lemma hash_of_similar : forall h h' p v, similar h h' -> hash_of hl hk h p v -> hash_of hl hk h' p v.
Proof. intros h h' p v Hs (f & E). exists f. rewrite (fresh_similar f h h' p Hs). exact E. Qed.

Lemma hash_of_unique : forall h p v w, hash_of hl hk h p v -> hash_of hl hk h p w -> v = w.
Proof.
  intros h p v w (f & E) (g & E').
  apply (fresh_mono f (Nat.max f g)) in E; [|lia]. apply (fresh_mono g (Nat.max f g)) in E'; [|lia]. congruence.
Qed.

Lemma upd_cache_similar : forall h x v, similar h (upd_node h x (set_cache (h x) v)).
Proof. intros h x v y. unfold upd_node. destruct (Nat.eqb_spec y x) as [->|]; cbn; (split; [left|]; auto). Qed.

Lemma upd_cache_ok : forall h x v, caches_ok hl hk h -> hash_of hl hk h x v -> caches_ok hl hk (upd_node h x (set_cache (h x) v)).
Proof.
  intros h x v Hc Hv p Hp. apply (hash_of_similar h); [apply upd_cache_similar|].
  unfold upd_node in Hp |- *. destruct (Nat.eqb p x) eqn:Ep; [apply Nat.eqb_eq in Ep; subst p; exact Hv|apply Hc, Hp].
Qed.

Lemma hash_spec : forall fuel h x h' v, caches_ok hl hk h -> hash hl hk fuel h x = Ok (h', v) ->
  similar h h' /\ caches_ok hl hk h' /\ hash_of hl hk h x v.
Proof.
  induction fuel as [|fuel IH]; intros h x h' v Hc H; [discriminate|]. cbn [hash] in H.
  assert (Hitems : forall l ha acc hb w, caches_ok hl hk ha -> hash_items (hash hl hk fuel) ha acc l = Ok (hb, w) ->
            similar ha hb /\ caches_ok hl hk hb /\ exists f, fresh_items (fresh_hash hl hk f ha) acc l = Some w).
  { induction l as [|[k c] l IHl]; intros ha acc hb w Hca Hi; cbn [hash_items] in Hi.
    - injection Hi as <- <-. split; [apply similar_refl|]. split; [exact Hca|]. exists O. reflexivity.
    - apply rbind_ok in Hi. destruct Hi as ([h1 v1] & E1 & Hi).
      destruct (IH _ _ _ _ Hca E1) as (S1 & C1 & (f1 & F1)).
      destruct (IHl _ _ _ _ C1 Hi) as (S2 & C2 & (f2 & F2)).
      split; [eapply similar_trans; eassumption|]. split; [exact C2|].
      exists (Nat.max f1 f2). cbn [fresh_items].
      rewrite (fresh_mono f1 (Nat.max f1 f2) ha c v1 ltac:(lia) F1).
      revert F2. apply fresh_items_ext. intros k' c' _ w' E. rewrite (fresh_similar f2 ha h1 c' S1) in E.
      apply (fresh_mono f2); [lia|exact E]. }
  destruct (ncont (h x)) as [l|l|m|c b] eqn:E.
  - assert (Hleaf : hash_of hl hk h x (leaf_hash hl l)). { exists 1%nat. cbn. rewrite E. reflexivity. }
    destruct l as [|bb|z|n|s d|a b];
      try (injection H as <- <-; split; [apply similar_refl|]; split; [exact Hc|exact Hleaf]).
    + (* string *)
      injection H as <- <-.
      assert (S : similar h (upd_node h x (set_cont (h x) (CLeaf (LStr s true))))).
      { intros y. unfold upd_node. destruct (Nat.eqb_spec y x) as [->|]; cbn; (split; [|auto]).
        - right. exists s, d, true. rewrite E. auto.
        - left; reflexivity. }
      split; [exact S|]. split; [|exact Hleaf].
      intros p Hp. apply (hash_of_similar h); [exact S|].
      unfold upd_node in Hp |- *. destruct (Nat.eqb p x) eqn:Ep; [apply Nat.eqb_eq in Ep; subst p|]; apply Hc, Hp.
    + (* reference *)
      destruct (N.eqb_spec (ncache (h x)) 0) as [E0|E0]; injection H as <- <-.
      * split; [apply upd_cache_similar|]. split; [apply upd_cache_ok; assumption|exact Hleaf].
      * split; [apply similar_refl|]. split; [exact Hc|]. apply Hc, E0.
  - destruct (N.eqb_spec (ncache (h x)) 0) as [E0|E0].
    + apply rbind_ok in H. destruct H as ([h1 v1] & Hi & E1). injection E1 as <- <-.
      destruct (Hitems _ _ _ _ _ Hc Hi) as (S1 & C1 & (f & F)).
      assert (Hv : hash_of hl hk h x v1). { exists (S f). cbn [fresh_hash]. rewrite E. exact F. }
      split; [eapply similar_trans; [exact S1|apply upd_cache_similar]|]. split; [|exact Hv].
      apply upd_cache_ok; [exact C1|]. apply (hash_of_similar h); assumption.
    + injection H as <- <-. split; [apply similar_refl|]. split; [exact Hc|]. apply Hc, E0.
  - destruct (N.eqb_spec (ncache (h x)) 0) as [E0|E0].
    + apply rbind_ok in H. destruct H as ([h1 v1] & Hi & E1). injection E1 as <- <-.
      destruct (Hitems _ _ _ _ _ Hc Hi) as (S1 & C1 & (f & F)).
      assert (Hv : hash_of hl hk h x v1). { exists (S f). cbn [fresh_hash]. rewrite E. exact F. }
      split; [eapply similar_trans; [exact S1|apply upd_cache_similar]|]. split; [|exact Hv].
      apply upd_cache_ok; [exact C1|]. apply (hash_of_similar h); assumption.
    + injection H as <- <-. split; [apply similar_refl|]. split; [exact Hc|]. apply Hc, E0.
  - destruct (IH _ _ _ _ Hc H) as (S1 & C1 & (f & F)). split; [exact S1|]. split; [exact C1|].
    exists (S f). cbn [fresh_hash]. rewrite E. exact F.
Qed.

(** hashing ends *)
Lemma hash_sim : forall fuel h x h' v, hash hl hk fuel h x = Ok (h', v) -> similar h h'.
Proof.
  induction fuel as [|fuel IH]; intros h x h' v H; [discriminate|]. cbn [hash] in H.
  assert (Hitems : forall l ha acc hb w, hash_items (hash hl hk fuel) ha acc l = Ok (hb, w) -> similar ha hb).
  { induction l as [|[k c] l IHl]; intros ha acc hb w Hi; cbn [hash_items] in Hi.
    - injection Hi as <- <-. apply similar_refl.
    - apply rbind_ok in Hi. destruct Hi as ([h1 v1] & E1 & Hi).
      eapply similar_trans; [eapply IH, E1|eapply IHl, Hi]. }
  destruct (ncont (h x)) as [l|l|m|c b] eqn:E.
  - destruct l as [|bb|z|n|s d|a b];
      try (injection H as <- <-; apply similar_refl).
    + injection H as <- <-. intros y. unfold upd_node. destruct (Nat.eqb_spec y x) as [->|]; cbn; (split; [|auto]).
      * right. exists s, d, true. rewrite E. auto.
      * left; reflexivity.
    + destruct (N.eqb_spec (ncache (h x)) 0) as [E0|E0]; injection H as <- <-; [apply upd_cache_similar|apply similar_refl].
  - destruct (N.eqb_spec (ncache (h x)) 0) as [E0|E0].
    + apply rbind_ok in H. destruct H as ([h1 v1] & Hi & E1). injection E1 as <- <-.
      eapply similar_trans; [eapply Hitems, Hi|apply upd_cache_similar].
    + injection H as <- <-. apply similar_refl.
  - destruct (N.eqb_spec (ncache (h x)) 0) as [E0|E0].
    + apply rbind_ok in H. destruct H as ([h1 v1] & Hi & E1). injection E1 as <- <-.
      eapply similar_trans; [eapply Hitems, Hi|apply upd_cache_similar].
    + injection H as <- <-. apply similar_refl.
  - eapply IH, H.
Qed.

Definition hash_done (h : heap) (c : nat) (F : nat) : Prop := forall fuel h1, (F <= fuel)%nat -> similar h h1 ->
  exists r, hash hl hk fuel h1 c = Ok r.

Lemma hash_items_end : forall h F l, (forall k c, In (k, c) l -> hash_done h c F) ->
  forall fuel h1 acc, (F <= fuel)%nat -> similar h h1 -> exists r, hash_items (hash hl hk fuel) h1 acc l = Ok r.
Proof.
  intros h F l. induction l as [|[k c] l IH]; intros Hl fuel h1 acc Hf Hs; [eexists; reflexivity|].
  cbn [hash_items]. destruct (Hl k c (or_introl eq_refl) fuel h1 Hf Hs) as ([h2 v] & E). rewrite E. cbn [rbind].
  apply IH; [|exact Hf|].
  - intros k' c' Hin. apply (Hl k'). right. exact Hin.
  - eapply similar_trans; [exact Hs|eapply hash_sim, E].
Qed.

Lemma hash_ends : forall h x, Acc (contains h) x -> exists F, hash_done h x F.
Proof.
  intros h x Ha. induction Ha as [x _ IH].
  assert (HF : exists F, forall c, In c (children (ncont (h x))) -> hash_done h c F).
  { assert (IH' : forall c, In c (children (ncont (h x))) -> exists F, hash_done h c F) by (intros c Hin; apply IH, Hin).
    clear IH. induction (children (ncont (h x))) as [|c l IHl]; [exists O; intros c []|].
    destruct IHl as (F1 & H1). { intros d Hd. apply IH'. right. exact Hd. }
    destruct (IH' c (or_introl eq_refl)) as (F2 & H2). exists (Nat.max F1 F2).
    intros d [<-|Hd] fuel h1 Hf Hs; [apply H2; [lia|exact Hs]|apply (H1 d Hd); [lia|exact Hs]]. }
  destruct HF as (F & HF). exists (S F). intros fuel h1 Hf Hs. destruct fuel as [|fuel]; [lia|].
  assert (Hf' : (F <= fuel)%nat) by lia. cbn [hash].
  destruct (Hs x) as (V & _). destruct V as [E|(s&d&d'&E1&E2)].
  2: { rewrite E2. eexists; reflexivity. }
  rewrite <- E. destruct (ncont (h x)) as [l|l|m|c b] eqn:E'.
  - destruct l; try (eexists; reflexivity). destruct (N.eqb (ncache (h1 x)) 0); eexists; reflexivity.
  - destruct (N.eqb (ncache (h1 x)) 0); [|eexists; reflexivity].
    destruct (hash_items_end h F (map (fun c => (0%N, c)) l)) with (fuel := fuel) (h1 := h1) (acc := 0%N) as ([h2 v] & Er);
      [|exact Hf'|exact Hs|rewrite Er; eexists; reflexivity].
    intros k c Hin. apply in_map_iff in Hin. destruct Hin as (c' & Ec & Hin). injection Ec as <- <-. apply HF, Hin.
  - destruct (N.eqb (ncache (h1 x)) 0); [|eexists; reflexivity].
    destruct (hash_items_end h F (map (fun e => (hk (fst e), snd e)) m)) with (fuel := fuel) (h1 := h1) (acc := 0%N) as ([h2 v] & Er);
      [|exact Hf'|exact Hs|rewrite Er; eexists; reflexivity].
    intros k c Hin. apply in_map_iff in Hin. destruct Hin as ([k' c'] & Ec & Hin). injection Ec as <- <-. apply HF.
    apply in_map_iff. exists (k', c'). auto.
  - apply HF; [left; reflexivity|exact Hf'|exact Hs].
Qed.

Lemma links_created : forall h, created h -> links h.
Proof.
  intros h Hc. split.
  - intros p c Hin. unfold contains in Hin. destruct (Hc p) as (_ & H & _).
    destruct (ncont (h p)) as [l|l|m|d b]; cbn [children] in *; try (rewrite H in Hin; destruct Hin).
    + destruct Hin.
    + destruct Hin as [<-|[]]. destruct H as (_ & ->). right. left. reflexivity.
  - intros p c _. destruct (Hc p) as (_ & H & _).
    destruct (ncont (h p)) as [l|l|m|d b]; cbn [children] in *; try (rewrite H; cbn; lia).
    + cbn. lia.
    + cbn. destruct (Nat.eq_dec d c); lia.
  - assert (Hs : forall s c b, ncont (h s) = CStream c b -> Acc (observes h) s).
    { intros s c b E. constructor. intros o Ho. exfalso. destruct (Hc s) as (_ & _ & H). destruct (H o Ho) as (b' & Eo).
      destruct (Hc o) as (_ & Hcr & _). rewrite Eo in Hcr. destruct Hcr as (Hcr & _). congruence. }
    intros x. constructor. intros o Ho. destruct (Hc x) as (_ & _ & H). destruct (H o Ho) as (b & E).
    eapply Hs, E.
  - assert (He : forall d, ncont (h d) = CDict [] -> Acc (contains h) d).
    { intros d E. constructor. intros c Hin. unfold contains in Hin. rewrite E in Hin. destruct Hin. }
    intros x. constructor. intros c Hin. unfold contains in Hin. destruct (Hc x) as (_ & H & _).
    destruct (ncont (h x)) as [l|l|m|d b]; cbn [children] in *; try (rewrite H in Hin; destruct Hin).
    + destruct Hin.
    + destruct Hin as [<-|[]]. destruct H as (E & _). apply He, E.
Qed.

Lemma history_inv : forall h, history hl hk h -> links h /\ caches_ok hl hk h.
Proof.
  intros h H. induction H as [h Hc|h o fuel h' H IH Hs Hstep].
  - split; [apply links_created, Hc|]. intros p Hp. destruct (Hc p) as (E & _). congruence.
  - destruct IH as (Hl & Hk). destruct (edited o) as [x|] eqn:Ex.
    + destruct (step_edit hl hk fuel h o h' x Hl Hs Ex Hstep) as [->|(hm & co & Ha & He & Hn)]; [auto|].
      eapply edit_good; eassumption.
    + destruct o; try discriminate; cbn [heap_step] in Hstep.
      * apply set_initialized_only in Hstep.
        assert (S : forall y, ncont (h' y) = ncont (h y)) by (intros y; apply Hstep).
        split.
        -- destruct Hl as [G1 G2 G3 G4]. split.
           ++ intros p c Hin. unfold contains, is_null in *. rewrite !S in *. destruct (Hstep c) as (_&_&_&->). apply G1, Hin.
           ++ intros p c Hn. unfold is_null in *. rewrite !S in *. apply G2, Hn.
           ++ intros y. apply (acc_sub (observes h)); [|apply G3]. intros a b' Ho. unfold observes in *.
              destruct (Hstep b') as (_&_&_&E). rewrite E in Ho. exact Ho.
           ++ intros y. apply (acc_sub (contains h)); [|apply G4]. intros a b' Ho. unfold contains in *. rewrite S in Ho. exact Ho.
        -- intros p Hp. destruct (Hstep p) as (_&_&E&_). rewrite E in *. destruct (Hk p Hp) as (f & Ef).
           exists f. rewrite <- Ef. clear - S. revert p. induction f as [|f IH]; intros p; [reflexivity|]. cbn [fresh_hash]. rewrite S.
           assert (Hi : forall l acc, fresh_items (fresh_hash hl hk f h') acc l = fresh_items (fresh_hash hl hk f h) acc l).
           { induction l as [|[k c] l IHl]; intros acc; [reflexivity|]. cbn [fresh_items]. rewrite IH.
             destruct (fresh_hash hl hk f h c); [apply IHl|reflexivity]. }
           destruct (ncont (h p)); [reflexivity|apply Hi|apply Hi|apply IH].
      * apply rbind_ok in Hstep. destruct Hstep as ([h1 v] & Eh & E). injection E as <-.
        destruct (hash_spec _ _ _ _ _ Hk Eh) as (S1 & C1 & _). split; [eapply links_similar; eassumption|exact C1].
Qed.
End Inv.

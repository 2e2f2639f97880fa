(** Proofs about iterators. *)
From Coq Require Import List NArith ZArith Bool Sorted Lia.
From Verif.Model Require Import Base Token SMap Iterators.
From Verif.Spec Require Import Iterators.
From Verif.Proof Require Import Tac SMap.
From Verif.Proof Require Append.
Import ListNotations.

(** * Dictionaries *)
Local Notation d_act := (act (smap unit) bytes dict_edit dict_apply dict_spoils).
Local Notation d_rounds := (rounds (smap unit) bytes dict_edit dict_items bytes_eqb dict_apply dict_spoils).
Local Notation d_iter := (iter bytes).

Lemma sorted_keys : forall (m : smap unit), ascending (map fst m) <-> sm_sorted m.
Proof.
  unfold ascending, sm_sorted. induction m as [|[k []] m IH]; cbn [map]; split; intros H; try constructor; inversion H as [|? ? H1 H2]; subst.
  - apply IH. exact H1.
  - rewrite Forall_forall in *. intros e He. apply H2. apply in_map. exact He.
  - apply IH. exact H1.
  - rewrite Forall_forall in *. intros k2 Hk. apply in_map_iff in Hk. destruct Hk as ([k3 u] & <- & Hi). apply (H2 _ Hi).
Qed.
Lemma bytes_keys : forall (m : smap unit), Forall all_bytes (map fst m) <-> sm_keys_ok m.
Proof. intros m. unfold sm_keys_ok. rewrite Forall_map. reflexivity. Qed.
Lemma dictionary_sm : forall m, dictionary m <-> sm_sorted m /\ sm_keys_ok m.
Proof. intros m. unfold dictionary. rewrite <- sorted_keys, <- bytes_keys. reflexivity. Qed.

Lemma in_keys : forall (m : smap unit) k, In k (map fst m) <-> In (k, tt) m.
Proof.
  intros m k. split; intros H.
  - apply in_map_iff in H. destruct H as ([k2 []] & <- & H). exact H.
  - apply in_map_iff. exists (k, tt). split; [reflexivity|exact H].
Qed.
Lemma put_keys : forall m k k2, dictionary m -> all_bytes k -> In k2 (map fst (sm_insert k tt m)) <-> k2 = k \/ In k2 (map fst m).
Proof.
  intros m k k2 Hd Hk. apply dictionary_sm in Hd. destruct Hd as [Hs Ho]. split.
  - intros H. assert (Hf : Forall (fun e => fst e = k \/ In (fst e) (map fst m)) (sm_insert k tt m)).
    { apply sm_insert_forall; [left; reflexivity|]. rewrite Forall_forall. intros e He. right. apply in_map. exact He. }
    rewrite Forall_forall in Hf. apply in_map_iff in H. destruct H as (e & <- & He). apply (Hf e He).
  - intros H. rewrite in_keys. assert (Hb : all_bytes k2).
    { destruct H as [-> |H]; [exact Hk|]. unfold sm_keys_ok in Ho. rewrite Forall_forall in Ho. apply in_map_iff in H. destruct H as (e & <- & He). apply (Ho e He). }
    apply sm_find_in; [apply sm_insert_sorted; exact Hs|apply sm_insert_keys_ok; assumption|exact Hb|].
    rewrite (sm_find_insert _ k tt k2 Hs Ho Hk Hb). destruct (sm_find k2 m) as [[]|] eqn:E; [reflexivity|].
    destruct H as [-> |H]; [destruct (list_eq_dec N.eq_dec k k); [reflexivity|contradiction]|].
    apply in_keys, sm_find_in in H; try assumption. congruence.
Qed.
Lemma del_keys : forall m k k2, dictionary m -> all_bytes k -> k2 <> k -> In k2 (map fst m) -> In k2 (map fst (sm_remove k m)).
Proof.
  intros m k k2 Hd Hk Hne H. apply dictionary_sm in Hd. destruct Hd as [Hs Ho]. apply in_keys in H.
  assert (Hb : all_bytes k2) by (unfold sm_keys_ok in Ho; rewrite Forall_forall in Ho; apply (Ho _ H)).
  apply in_keys. apply sm_find_in; [apply sm_remove_sorted; exact Hs|apply sm_remove_forall; exact Ho|exact Hb|].
  rewrite (sm_find_remove _ k k2 Hs Ho Hk Hb). destruct (list_eq_dec N.eq_dec k2 k); [contradiction|]. apply sm_find_in; assumption.
Qed.
Lemma del_keys_in : forall (m : smap unit) k k2, In k2 (map fst (sm_remove k m)) -> In k2 (map fst m).
Proof.
  intros m k k2 H. assert (Hf : Forall (fun e => In (fst e) (map fst m)) (sm_remove k m)).
  { apply sm_remove_forall. rewrite Forall_forall. intros e He. apply in_map. exact He. }
  rewrite Forall_forall in Hf. apply in_map_iff in H. destruct H as (e & <- & He). apply (Hf e He).
Qed.
Lemma put_dictionary : forall m k, dictionary m -> all_bytes k -> dictionary (sm_insert k tt m).
Proof. intros m k Hd Hk. apply dictionary_sm in Hd. apply dictionary_sm. split; [apply sm_insert_sorted; apply Hd|apply sm_insert_keys_ok; [apply Hd|exact Hk]]. Qed.
Lemma del_dictionary : forall m k, dictionary m -> dictionary (sm_remove k m).
Proof. intros m k Hd. apply dictionary_sm in Hd. apply dictionary_sm. split; [apply sm_remove_sorted; apply Hd|apply sm_remove_forall; apply Hd]. Qed.
Lemma del_length : forall (m : smap unit) k, length (sm_remove k m) <= length m.
Proof. induction m as [|[k2 v] m IH]; intros k; cbn [sm_remove length]; [lia|]. destruct (buffer_ltb k k2); cbn [length]; [lia|]. destruct (buffer_ltb k2 k); cbn [length]; [specialize (IH k)|]; lia. Qed.

(** the changes of one round *)
Definition dict_act_ok (k : bytes) (a : action dict_edit) : Prop :=
  (exists x, a = Change (DPut x) /\ all_bytes x) \/ (exists x, a = Change (DDel x) /\ all_bytes x /\ x <> k).
Lemma dict_round : forall k acts m, dictionary m -> In k (map fst m) -> (forall a, In a acts -> dict_act_ok k a) ->
  exists m', fold_left (fun s a => d_act a s) acts (m, {| it_at := Some k; it_usable := true |}) = (m', {| it_at := Some k; it_usable := true |})
    /\ dictionary m' /\ In k (map fst m')
    /\ (forall k0, In k0 (map fst m) -> ~ In (Change (DDel k0)) acts -> In k0 (map fst m'))
    /\ (forall k0, In k0 (map fst m') -> In k0 (map fst m) \/ In (Change (DPut k0)) acts).
Proof.
  intros k. induction acts as [|a acts IH]; intros m Hd Hk Hok.
  - exists m. cbn [fold_left]. repeat (split; [auto|]). intros k0 H. left; exact H.
  - cbn [fold_left]. destruct (Hok a (or_introl eq_refl)) as [(x & -> & Hx)|(x & -> & Hx & Hne)].
    + cbn [act it_at it_usable dict_spoils andb negb dict_apply].
      assert (Hk1 : In k (map fst (sm_insert x tt m))) by (apply put_keys; auto).
      destruct (IH _ (put_dictionary m x Hd Hx) Hk1 (fun a H => Hok a (or_intror H))) as (m' & H1 & H2 & H3 & H4 & H5).
      exists m'. split; [exact H1|]. split; [exact H2|]. split; [exact H3|]. split.
      * intros k0 H0 Hn. apply H4; [apply put_keys; auto|]. intros H; apply Hn; right; exact H.
      * intros k0 H0. destruct (H5 k0 H0) as [H|H]; [|right; right; exact H]. apply put_keys in H; auto. destruct H as [-> |H]; [right; left; reflexivity|left; exact H].
    + cbn [act it_at it_usable dict_spoils andb negb dict_apply]. rewrite (Append.beqb_neq x k Hne). cbn [negb andb].
      assert (Hk1 : In k (map fst (sm_remove x m))) by (apply del_keys; auto).
      destruct (IH _ (del_dictionary m x Hd) Hk1 (fun a H => Hok a (or_intror H))) as (m' & H1 & H2 & H3 & H4 & H5).
      exists m'. split; [exact H1|]. split; [exact H2|]. split; [exact H3|]. split.
      * intros k0 H0 Hn. apply H4; [|intros H; apply Hn; right; exact H]. apply del_keys; auto. intros ->. apply Hn. left; reflexivity.
      * intros k0 H0. destruct (H5 k0 H0) as [H|H]; [left; apply (del_keys_in _ _ _ H)|right; right; exact H].
Qed.

(** the element after [k] *)
Lemma following_sorted : forall l k, ascending l -> In k l ->
  match following bytes bytes_eqb k l with
  | Some k' => In k' l /\ buffer_ltb k k' = true /\ (forall x, In x l -> buffer_ltb k x = true -> x = k' \/ buffer_ltb k' x = true)
  | None => forall x, In x l -> buffer_ltb k x = false
  end.
Proof.
  induction l as [|y l IH]; intros k Hs Hk; [destruct Hk|]. inversion Hs as [|? ? Hs2 Hall]; subst. rewrite Forall_forall in Hall.
  cbn [following]. destruct (bytes_eqb y k) eqn:E.
  - apply Append.beqb_eq in E. subst y. destruct l as [|z l]; cbn [hd_error].
    + intros x [<- |[]]. apply ltb_irrefl.
    + split; [right; left; reflexivity|]. split; [apply Hall; left; reflexivity|]. intros x [<- |[<- |Hx]] Hlt.
      * rewrite ltb_irrefl in Hlt. discriminate.
      * left; reflexivity.
      * right. inversion Hs2 as [|? ? _ Hz]; subst. rewrite Forall_forall in Hz. apply Hz. exact Hx.
  - destruct Hk as [-> |Hk]; [rewrite Append.beqb_refl in E; discriminate|]. specialize (IH k Hs2 Hk).
    pose proof (Hall k Hk) as Hyk. destruct (following bytes bytes_eqb k l) as [k'|].
    + destruct IH as (H1 & H2 & H3). split; [right; exact H1|]. split; [exact H2|]. intros x [<- |Hx] Hlt; [|apply H3; assumption].
      rewrite (ltb_asym _ _ Hyk) in Hlt. discriminate.
    + intros x [<- |Hx]; [apply ltb_asym; exact Hyk|apply IH; exact Hx].
Qed.

Definition from (at_ : option bytes) (k0 : bytes) : Prop := match at_ with Some k => k0 = k \/ buffer_ltb k k0 = true | None => False end.
Lemma dict_rounds : forall body, careful_dict body -> forall fuel i m at_ ks m' r,
  dictionary m -> (forall k, at_ = Some k -> In k (map fst m)) ->
  d_rounds fuel body i m {| it_at := at_; it_usable := true |} = (ks, m', r) ->
  (r = Ok true \/ r = Ok false) /\ ascending ks /\ (forall k, In k ks -> from at_ k)
  /\ (r = Ok true -> forall k, In k (map fst m) -> from at_ k -> never_removes body k -> In k ks)
  /\ (forall k, In k ks -> In k (map fst m) \/ inserts body k).
Proof.
  intros body Hbody. induction fuel as [|fuel IH]; intros i m at_ ks m' r Hd Hat Hr.
  - cbn [rounds is_valid it_usable it_at] in Hr. destruct at_ as [k|].
    + injection Hr as <- <- <-. split; [right; reflexivity|]. split; [constructor|]. split; [intros ? []|]. split; [discriminate|intros ? []].
    + injection Hr as <- <- <-. split; [left; reflexivity|]. split; [constructor|]. split; [intros ? []|]. split; [intros _ k _ []|intros ? []].
  - cbn [rounds is_valid it_usable it_at] in Hr. destruct at_ as [k|].
    2:{ injection Hr as <- <- <-. split; [left; reflexivity|]. split; [constructor|]. split; [intros ? []|]. split; [intros _ k _ []|intros ? []]. }
    cbn [value it_usable it_at] in Hr. pose proof (Hat k eq_refl) as Hk.
    destruct (dict_round k (body i k) m Hd Hk (fun a Ha => Hbody i k a Ha)) as (m1 & E1 & Hd1 & Hk1 & Hstay & Hnew).
    rewrite E1 in Hr. cbn [next it_usable it_at] in Hr. change (dict_items m1) with (map fst m1) in Hr.
    pose proof (following_sorted (map fst m1) k (proj1 Hd1) Hk1) as Hf.
    destruct (d_rounds fuel body (S i) m1 {| it_at := following bytes bytes_eqb k (map fst m1); it_usable := true |}) as [[ks1 m2] r1] eqn:E2.
    injection Hr as <- <- <-.
    assert (Hat1 : forall k', following bytes bytes_eqb k (map fst m1) = Some k' -> In k' (map fst m1)).
    { intros k' Hk'. rewrite Hk' in Hf. apply Hf. }
    destruct (IH (S i) m1 _ ks1 m2 r1 Hd1 Hat1 E2) as (H1 & H2 & H3 & H4 & H5).
    assert (Hgt : forall x, In x ks1 -> buffer_ltb k x = true).
    { intros x Hx. specialize (H3 x Hx). destruct (following bytes bytes_eqb k (map fst m1)) as [k'|]; [|destruct H3]. destruct Hf as (_ & Hlt & _).
      destruct H3 as [-> |H3]; [exact Hlt|apply ltb_trans with k'; assumption]. }
    split; [exact H1|]. split; [constructor; [exact H2|rewrite Forall_forall; exact Hgt]|]. split.
    + intros x [<- |Hx]; [left; reflexivity|right; apply Hgt; exact Hx].
    + split.
      * intros Hok x Hx Hfrom Hnr. destruct Hfrom as [-> |Hlt]; [left; reflexivity|right].
        assert (Hx1 : In x (map fst m1)) by (apply Hstay; [exact Hx|apply Hnr]).
        apply (H4 Hok x Hx1); [|exact Hnr]. destruct (following bytes bytes_eqb k (map fst m1)) as [k'|].
        -- apply Hf; assumption.
        -- rewrite (Hf x Hx1) in Hlt. discriminate.
      * intros x [<- |Hx]; [left; exact Hk|]. destruct (H5 x Hx) as [H|H]; [|right; exact H]. destruct (Hnew x H) as [H0|H0]; [left; exact H0|right; exists i, k; exact H0].
Qed.

Lemma dict_walk : forall body fuel m ks m' r, careful_dict body -> dictionary m -> dict_loop fuel body m = (ks, m', r) ->
  (r = Ok true \/ r = Ok false) /\ ascending ks
  /\ (r = Ok true -> forall k, In k (map fst m) -> never_removes body k -> In k ks)
  /\ (forall k, In k ks -> In k (map fst m) \/ inserts body k).
Proof.
  intros body fuel m ks m' r Hb Hd H. unfold dict_loop, loop, get_iterator in H.
  assert (Hat : forall k, hd_error (dict_items m) = Some k -> In k (map fst m)).
  { intros k Hk. unfold dict_items in Hk. destruct (map fst m); [discriminate|]. injection Hk as ->. left; reflexivity. }
  destruct (dict_rounds body Hb fuel 0 m _ ks m' r Hd Hat H) as (H1 & H2 & _ & H4 & H5).
  split; [exact H1|]. split; [exact H2|]. split; [|exact H5]. intros Hr k Hk Hn. apply (H4 Hr k Hk); [|exact Hn].
  unfold dict_items. destruct Hd as [Hs _]. destruct (map fst m) as [|k1 l]; [destruct Hk|]. cbn [hd_error from]. destruct Hk as [-> |Hk]; [left; reflexivity|right].
  inversion Hs as [|? ? _ Hall]; subst. rewrite Forall_forall in Hall. apply Hall. exact Hk.
Qed.

Lemma skipn_cons_nth : forall {A} (l : list A) i x, nth_error l i = Some x -> skipn i l = x :: skipn (S i) l.
Proof. intros A. induction l as [|y l IH]; intros [|i] x H; try discriminate; [injection H as ->; reflexivity|]. cbn [skipn]. apply (IH i x H). Qed.
(** a loop that is left before the end used all its rounds *)
Lemma rounds_used : forall C K E items eqb apply spoils fuel body i (c : C) (it : iter K) ks c' ,
  rounds C K E items eqb apply spoils fuel body i c it = (ks, c', Ok false) -> length ks = fuel.
Proof.
  intros C K E items eqb apply spoils. induction fuel as [|fuel IH]; intros body i c it ks c' H; cbn [rounds] in H.
  - destruct (is_valid K it) as [[|]| | |]; try discriminate; injection H as <- <-; reflexivity.
  - destruct (is_valid K it) as [[|]| | |]; try discriminate. destruct (value K it) as [k| | |]; try discriminate.
    destruct (fold_left (fun s a => act C K E apply spoils a s) (body i k) (c, it)) as [c1 it1].
    destruct (next C K items eqb c1 it1) as [it2| | |]; try discriminate.
    destruct (rounds C K E items eqb apply spoils fuel body (S i) c1 it2) as [[ks1 c2] r1] eqn:E1. injection H as <- <- ->.
    cbn [length]. f_equal. apply (IH _ _ _ _ _ _ E1).
Qed.
Lemma ascending_nodup : forall l, ascending l -> NoDup l.
Proof.
  induction l as [|x l IH]; intros H; [constructor|]. inversion H as [|? ? H1 H2]; subst. constructor; [|apply IH; exact H1].
  intros Hx. rewrite Forall_forall in H2. pose proof (H2 x Hx) as Hlt. rewrite ltb_irrefl in Hlt. discriminate.
Qed.
Lemma dict_ends : forall body fuel m, careful_dict body -> dictionary m -> (forall k, ~ inserts body k) -> length m < fuel ->
  snd (dict_loop fuel body m) = Ok true.
Proof.
  intros body fuel m Hb Hd Hni Hl. destruct (dict_loop fuel body m) as [[ks m'] r] eqn:E.
  destruct (dict_walk body fuel m ks m' r Hb Hd E) as (H1 & H2 & _ & H4). cbn [snd]. destruct H1 as [-> | ->]; [reflexivity|exfalso].
  apply rounds_used in E. assert (Hle : length ks <= length (map fst m)).
  { apply NoDup_incl_length; [apply ascending_nodup; exact H2|]. intros k Hk. destruct (H4 k Hk) as [H|H]; [exact H|destruct (Hni k H)]. }
  rewrite map_length in Hle. lia.
Qed.

(** * Cross-reference sections *)
Section Table.
Variable place : list N -> N -> nat.
Variable shuffle : list N -> list N.
Variable grow : nat -> nat.
Local Notation t_act := (act table N table_edit (table_apply place shuffle grow) table_spoils).
Local Notation t_rounds := (rounds table N table_edit t_items N.eqb (table_apply place shuffle grow) table_spoils).

Definition before (a b : N) (l : list N) : Prop := exists u v, l = u ++ a :: v /\ In b v.

Lemma in_put : forall i x (y : N) l, In y (put_at i x l) <-> y = x \/ In y l.
Proof.
  intros i x y l. unfold put_at. rewrite <- (firstn_skipn i l) at 3. rewrite !in_app_iff. cbn [In]. intuition auto.
Qed.
Lemma in_without : forall n (y : N) l, In y (without n l) <-> y <> n /\ In y l.
Proof.
  intros n y l. unfold without. rewrite filter_In. split.
  - intros [H1 H2]. split; [|exact H1]. apply negb_true_iff, N.eqb_neq in H2. exact H2.
  - intros [H1 H2]. split; [exact H2|]. apply negb_true_iff, N.eqb_neq. exact H1.
Qed.
Lemma nodup_put : forall i (x : N) l, NoDup l -> ~ In x l -> NoDup (put_at i x l).
Proof.
  intros i x l Hn Hx. unfold put_at. apply (NoDup_Add (Add_app x (firstn i l) (skipn i l))). rewrite firstn_skipn. split; assumption.
Qed.
Lemma nodup_without : forall n l, NoDup l -> NoDup (without n l).
Proof. intros n l H. apply NoDup_filter. exact H. Qed.

Lemma before_put : forall i x a b l, before a b l -> before a b (put_at i x l).
Proof.
  intros i x a b l (u & v & Hl & Hb). unfold put_at. rewrite <- (firstn_skipn i l) in Hl. symmetry in Hl.
  apply app_eq_app in Hl. destruct Hl as (w & [[H1 H2]|[H1 H2]]).
  - (* u = firstn ++ w *)
    rewrite H2. exists (firstn i l ++ x :: w), v. split; [|exact Hb].
    rewrite <- app_assoc. reflexivity.
  - destruct w as [|y w].
    + cbn [app] in H2. rewrite app_nil_r in H1. rewrite H1, <- H2. exists (u ++ [x]), v. split; [rewrite <- app_assoc; reflexivity|exact Hb].
    + cbn [app] in H2. injection H2 as -> H2. rewrite H1. exists u, (w ++ x :: skipn i l). split; [rewrite <- app_assoc; reflexivity|].
      rewrite H2 in Hb. apply in_app_or in Hb. apply in_or_app. destruct Hb as [Hb|Hb]; [left; exact Hb|right; right; exact Hb].
Qed.
Lemma before_without : forall n a b l, a <> n -> b <> n -> before a b l -> before a b (without n l).
Proof.
  intros n a b l Ha Hb (u & v & -> & H). exists (without n u), (without n v). split.
  - unfold without. rewrite filter_app. cbn [filter]. replace (negb (N.eqb a n)) with true; [reflexivity|]. symmetry. apply negb_true_iff, N.eqb_neq. exact Ha.
  - apply in_without. split; assumption.
Qed.
Lemma before_total : forall a b l, In a l -> In b l -> a <> b -> before a b l \/ before b a l.
Proof.
  intros a b l Ha Hb Hne. apply in_split in Ha. destruct Ha as (u & v & ->). apply in_app_or in Hb. destruct Hb as [Hb|[Hb|Hb]].
  - right. apply in_split in Hb. destruct Hb as (u1 & u2 & ->). exists u1, (u2 ++ a :: v). split; [rewrite <- app_assoc; reflexivity|]. apply in_or_app. right; left; reflexivity.
  - contradiction.
  - left. exists u, v. split; [reflexivity|exact Hb].
Qed.

(** following element *)
Lemma following_spec : forall u k v, ~ In k u -> following N N.eqb k (u ++ k :: v) = hd_error v.
Proof.
  induction u as [|x u IH]; intros k v H; cbn [app following]; [rewrite N.eqb_refl; reflexivity|].
  destruct (N.eqb x k) eqn:E; [apply N.eqb_eq in E; subst; destruct H; left; reflexivity|]. apply IH. intros Hi; apply H; right; exact Hi.
Qed.

Section Body.
Variable new : list N.
Variable start : list N.
Variable body : nat -> N -> list (action table_edit).
Hypothesis Hbody : careful_table new body.

Record good (t : table) : Prop := {
  g_nodup : NoDup (t_items t);
  g_incl : incl (t_items t) (start ++ new);
  g_room : length (start ++ new) <= t_buckets t
}.

Lemma no_rehash : forall n t, good t -> In n new -> rehashes n t = false.
Proof.
  intros n t [H1 H2 H3] Hn. unfold rehashes. destruct (existsb (N.eqb n) (t_items t)) eqn:E; [reflexivity|]. cbn [negb andb]. apply Nat.ltb_ge.
  assert (Hni : ~ In n (t_items t)).
  { intros Hi. assert (existsb (N.eqb n) (t_items t) = true) by (apply existsb_exists; exists n; split; [exact Hi|apply N.eqb_refl]). congruence. }
  assert (Hle : length (n :: t_items t) <= length (start ++ new)).
  { apply NoDup_incl_length; [constructor; assumption|]. intros x [<- |Hx]; [apply in_or_app; right; exact Hn|apply H2; exact Hx]. }
  cbn [length] in Hle. lia.
Qed.

Definition table_act_ok (k : N) (a : action table_edit) : Prop :=
  (exists n, a = Change (TAdd n) /\ In n new /\ n <> k) \/ (exists n, a = Change (TDel n) /\ n <> k).
Definition touches (k : N) (acts : list (action table_edit)) : Prop := In (Change (TAdd k)) acts \/ In (Change (TDel k)) acts.
Lemma table_round : forall k acts t, good t -> In k (t_items t) -> (forall a, In a acts -> table_act_ok k a) ->
  exists t', fold_left (fun s a => t_act a s) acts (t, {| it_at := Some k; it_usable := true |}) = (t', {| it_at := Some k; it_usable := true |})
    /\ good t' /\ In k (t_items t')
    /\ (forall k0, In k0 (t_items t) -> ~ touches k0 acts -> In k0 (t_items t'))
    /\ (forall k0, In k0 (t_items t') -> In k0 (t_items t) \/ In (Change (TAdd k0)) acts)
    /\ (forall k0, before k k0 (t_items t) -> ~ touches k0 acts -> before k k0 (t_items t'))
    /\ (forall k0, before k0 k (t_items t) -> ~ In (Change (TAdd k0)) acts -> In k0 (t_items t') -> before k0 k (t_items t')).
Proof.
  intros k. induction acts as [|a acts IH]; intros t Hg Hk Hok.
  - exists t. cbn [fold_left]. split; [reflexivity|]. split; [exact Hg|]. split; [exact Hk|]. split; [auto|]. split; [auto|]. split; auto.
  - cbn [fold_left]. destruct (Hok a (or_introl eq_refl)) as [(n & -> & Hn & Hne)|(n & -> & Hne)].
    + pose proof (no_rehash n t Hg Hn) as Hr. destruct Hg as [G1 G2 G3].
      cbn [act it_at it_usable table_spoils andb negb table_apply]. rewrite Hr. rewrite (proj2 (N.eqb_neq n k) Hne). cbn [orb negb andb].
      set (t1 := {| t_items := put_at (place (without n (t_items t)) n) n (without n (t_items t)); t_buckets := t_buckets t |}).
      assert (Hin1 : forall y, In y (t_items t1) <-> y = n \/ In y (t_items t)).
      { intros y. unfold t1. cbn [t_items]. rewrite in_put, in_without. destruct (N.eq_dec y n); intuition auto. }
      assert (G : good t1).
      { constructor; unfold t1; cbn [t_items t_buckets].
        - apply nodup_put; [apply nodup_without; exact G1|]. rewrite in_without. intros [H _]; apply H; reflexivity.
        - intros y Hy. apply (Hin1 y) in Hy. destruct Hy as [-> |Hy]; [apply in_or_app; right; exact Hn|apply G2; exact Hy].
        - exact G3. }
      destruct (IH t1 G (proj2 (Hin1 k) (or_intror Hk)) (fun a H => Hok a (or_intror H))) as (t' & E & H1 & H2 & H3 & H4 & H5 & H6).
      exists t'. split; [exact E|]. split; [exact H1|]. split; [exact H2|]. split; [|split; [|split]].
      * intros k0 H0 Hn0. apply H3; [apply Hin1; right; exact H0|]. intros [H|H]; apply Hn0; [left; right; exact H|right; right; exact H].
      * intros k0 H0. destruct (H4 k0 H0) as [H|H]; [|right; right; exact H]. apply Hin1 in H. destruct H as [-> |H]; [right; left; reflexivity|left; exact H].
      * intros k0 H0 Hn0. apply H5.
        -- unfold t1. cbn [t_items]. apply before_put. apply before_without; [congruence| |exact H0]. intros ->. apply Hn0. left; left; reflexivity.
        -- intros [H|H]; apply Hn0; [left; right; exact H|right; right; exact H].
      * intros k0 H0 Hn0 Hin. apply H6; [|intros H; apply Hn0; right; exact H|exact Hin].
        unfold t1. cbn [t_items]. apply before_put. apply before_without; [|congruence|exact H0]. intros ->. apply Hn0. left; reflexivity.
    + destruct Hg as [G1 G2 G3]. cbn [act it_at it_usable table_spoils andb negb table_apply]. rewrite (proj2 (N.eqb_neq n k) Hne). cbn [orb negb andb].
      set (t1 := {| t_items := without n (t_items t); t_buckets := t_buckets t |}).
      assert (Hin1 : forall y, In y (t_items t1) <-> y <> n /\ In y (t_items t)) by (intros y; apply in_without).
      assert (G : good t1).
      { constructor; unfold t1; cbn [t_items t_buckets].
        - apply nodup_without; exact G1.
        - intros y Hy. apply (Hin1 y) in Hy. apply G2. apply Hy.
        - exact G3. }
      assert (Hk1 : In k (t_items t1)) by (apply Hin1; split; [congruence|exact Hk]).
      destruct (IH t1 G Hk1 (fun a H => Hok a (or_intror H))) as (t' & E & H1 & H2 & H3 & H4 & H5 & H6).
      exists t'. split; [exact E|]. split; [exact H1|]. split; [exact H2|]. split; [|split; [|split]].
      * intros k0 H0 Hn0. apply H3; [apply Hin1; split; [|exact H0]; intros ->; apply Hn0; right; left; reflexivity|]. intros [H|H]; apply Hn0; [left; right; exact H|right; right; exact H].
      * intros k0 H0. destruct (H4 k0 H0) as [H|H]; [|right; right; exact H]. left. apply Hin1 in H. apply H.
      * intros k0 H0 Hn0. apply H5.
        -- unfold t1. cbn [t_items]. apply before_without; [congruence| |exact H0]. intros ->. apply Hn0. right; left; reflexivity.
        -- intros [H|H]; apply Hn0; [left; right; exact H|right; right; exact H].
      * intros k0 H0 Hn0 Hin. destruct (N.eq_dec k0 n) as [-> |Hkn].
        -- (* removed and never added again *)
           exfalso. destruct (H4 n Hin) as [H|H]; [apply Hin1 in H; destruct H as [H _]; apply H; reflexivity|apply Hn0; right; exact H].
        -- apply H6; [|intros H; apply Hn0; right; exact H|exact Hin]. unfold t1. cbn [t_items]. apply before_without; [exact Hkn|congruence|exact H0].
Qed.

(** an element that lies before the iterator, or is not there *)
Definition passed (at_ : option N) (k0 : N) (l : list N) : Prop :=
  match at_ with None => True | Some k => k <> k0 /\ (In k0 l -> before k0 k l) end.
Definition ahead (at_ : option N) (k0 : N) (l : list N) : Prop := match at_ with None => False | Some k => k = k0 \/ before k k0 l end.

Lemma split_mid : forall (u v u2 v2 : list N) a b, u ++ a :: v = u2 ++ b :: v2 ->
  (u = u2 /\ a = b /\ v = v2) \/ (exists w, u = u2 ++ b :: w /\ v2 = w ++ a :: v) \/ (exists w, u2 = u ++ a :: w /\ v = w ++ b :: v2).
Proof.
  intros u v u2 v2 a b H. apply app_eq_app in H. destruct H as (w & [[H3 H4]|[H3 H4]]); destruct w as [|y w]; cbn [app] in H4; injection H4 as H5 H6; subst.
  - left. rewrite app_nil_r. auto.
  - right; left. exists w. split; reflexivity.
  - left. rewrite app_nil_r. auto.
  - right; right. exists w. split; reflexivity.
Qed.
Lemma following_place : forall k l, NoDup l -> In k l ->
  (forall k', following N N.eqb k l = Some k' -> In k' l)
  /\ (forall k0, before k k0 l -> ahead (following N N.eqb k l) k0 l)
  /\ (forall k0, k0 = k \/ before k0 k l \/ ~ In k0 l -> passed (following N N.eqb k l) k0 l).
Proof.
  intros k l Hn Hk. apply in_split in Hk. destruct Hk as (u & v & ->).
  assert (Hnk : ~ In k (u ++ v)) by (apply (NoDup_remove_2 u v k Hn)).
  rewrite following_spec by (intros H; apply Hnk; apply in_or_app; left; exact H).
  split; [|split].
  - intros k' H. destruct v as [|x v]; [discriminate|]. injection H as ->. apply in_or_app. right; right; left; reflexivity.
  - intros k0 Hb. assert (H0 : In k0 v).
    { destruct Hb as (u2 & v2 & He & Hi). destruct (split_mid _ _ _ _ _ _ He) as [(_ & _ & ->)|[(w & -> & _)|(w & _ & ->)]]; [exact Hi| |].
      - exfalso. apply Hnk. apply in_or_app. left. apply in_or_app. right; left; reflexivity.
      - exfalso. apply Hnk. apply in_or_app. right. apply in_or_app. right; left; reflexivity. }
    destruct v as [|x v]; [destruct H0|]. cbn [hd_error ahead]. destruct H0 as [-> |H0]; [left; reflexivity|right]. exists (u ++ [k]), v. split; [rewrite <- app_assoc; reflexivity|exact H0].
  - intros k0 Hc. destruct v as [|x v]; cbn [hd_error passed]; [exact I|].
    assert (Hu : forall y, In y u -> before y x (u ++ k :: x :: v)).
    { intros y Hy. apply in_split in Hy. destruct Hy as (a & b & ->). exists a, (b ++ k :: x :: v). split; [rewrite <- app_assoc; reflexivity|]. apply in_or_app. right; right; left; reflexivity. }
    assert (Hkx : before k x (u ++ k :: x :: v)) by (exists u, (x :: v); split; [reflexivity|left; reflexivity]).
    assert (Hxin : In x (u ++ k :: x :: v)) by (apply in_or_app; right; right; left; reflexivity).
    destruct Hc as [-> |[Hb|Hni]].
    + split; [|intros _; exact Hkx]. intros ->. apply Hnk. apply in_or_app. right; left; reflexivity.
    + assert (H0u : In k0 u).
      { destruct Hb as (u2 & v2 & He & Hi). destruct (split_mid _ _ _ _ _ _ He) as [(_ & _ & H5)|[(w & -> & _)|(w & _ & H5)]].
        - exfalso. apply Hnk. apply in_or_app. right. rewrite H5. exact Hi.
        - apply in_or_app. right; left; reflexivity.
        - exfalso. apply Hnk. apply in_or_app. right. rewrite H5. apply in_or_app. right; right; exact Hi. }
      split; [|intros _; apply Hu; exact H0u]. intros ->. apply in_split in H0u. destruct H0u as (a & b & ->).
      rewrite <- app_assoc in Hn. cbn [app] in Hn. apply NoDup_remove_2 in Hn. apply Hn. apply in_or_app. right. apply in_or_app. right. right. left. reflexivity.
    + split; [intros ->; apply Hni; exact Hxin|intros H; contradiction].
Qed.

Lemma table_rounds : forall fuel i t at_ ks t' r,
  good t -> (forall k, at_ = Some k -> In k (t_items t)) ->
  t_rounds fuel body i t {| it_at := at_; it_usable := true |} = (ks, t', r) ->
  (r = Ok true \/ r = Ok false)
  /\ (forall k0, In k0 ks -> In k0 (t_items t) \/ exists i x, In (Change (TAdd k0)) (body i x))
  /\ (forall k0, (forall i x, ~ In (Change (TAdd k0)) (body i x)) -> passed at_ k0 (t_items t) -> times k0 ks = 0)
  /\ (forall k0, (forall i x, ~ In (Change (TAdd k0)) (body i x)) -> times k0 ks <= 1)
  /\ (r = Ok true -> forall k0, leaves_alone body k0 -> ahead at_ k0 (t_items t) -> times k0 ks = 1).
Proof.
  induction fuel as [|fuel IH]; intros i t at_ ks t' r Hg Hat Hr.
  - cbn [rounds is_valid it_usable it_at] in Hr. destruct at_ as [k|]; injection Hr as <- <- <-; (split; [auto|split; [intros ? []|split; [reflexivity|split; [intros; unfold times; cbn; lia|]]]]).
    + discriminate.
    + intros _ k0 _ [].
  - cbn [rounds is_valid it_usable it_at] in Hr. destruct at_ as [k|].
    2:{ injection Hr as <- <- <-; (split; [auto|split; [intros ? []|split; [reflexivity|split; [intros; unfold times; cbn; lia|]]]]). intros _ k0 _ []. }
    cbn [value it_usable it_at] in Hr. pose proof (Hat k eq_refl) as Hk.
    destruct (table_round k (body i k) t Hg Hk (fun a Ha => Hbody i k a Ha)) as (t1 & E1 & Hg1 & Hk1 & Hstay & Hnew & Haft & Hbef).
    rewrite E1 in Hr. cbn [next it_usable it_at] in Hr.
    destruct (following_place k (t_items t1) (g_nodup t1 Hg1) Hk1) as (F1 & F2 & F3).
    destruct (t_rounds fuel body (S i) t1 {| it_at := following N N.eqb k (t_items t1); it_usable := true |}) as [[ks1 t2] r1] eqn:E2.
    injection Hr as <- <- <-.
    destruct (IH (S i) t1 _ ks1 t2 r1 Hg1 F1 E2) as (H1 & H2 & H3 & H4 & H5).
    split; [exact H1|]. split; [|split; [|split]].
    + intros k0 [<- |H0]; [left; exact Hk|]. destruct (H2 k0 H0) as [H|H]; [|right; exact H]. destruct (Hnew k0 H) as [H6|H6]; [left; exact H6|right; exists i, k; exact H6].
    + intros k0 Hna [Hp1 Hp2]. unfold times. rewrite count_occ_cons_neq by exact Hp1. apply (H3 k0 Hna). apply F3.
      destruct (in_dec N.eq_dec k0 (t_items t1)) as [Hi|Hi]; [|right; right; exact Hi]. right; left. apply Hbef; [|apply Hna|exact Hi].
      apply Hp2. destruct (Hnew k0 Hi) as [H|H]; [exact H|]. destruct (Hna i k H).
    + intros k0 Hna. destruct (N.eq_dec k k0) as [-> |Hne].
      * unfold times. rewrite count_occ_cons_eq by reflexivity. assert (Hz : times k0 ks1 = 0) by (apply (H3 k0 Hna), F3; left; reflexivity). unfold times in Hz. lia.
      * unfold times. rewrite count_occ_cons_neq by exact Hne. apply (H4 k0 Hna).
    + intros Hr k0 Hla [-> |Ha].
      * unfold times. rewrite count_occ_cons_eq by reflexivity. f_equal. apply (H3 k0 (fun i x => proj1 (Hla i x))), F3. left; reflexivity.
      * assert (Hnt : ~ touches k0 (body i k)) by (intros [H|H]; [apply (proj1 (Hla i k) H)|apply (proj2 (Hla i k) H)]).
        assert (Hne : k <> k0).
        { intros ->. destruct Ha as (u & v & He & Hi). pose proof (g_nodup t Hg) as Hn. rewrite He in Hn. apply NoDup_remove_2 in Hn. apply Hn. apply in_or_app. right; exact Hi. }
        unfold times. rewrite count_occ_cons_neq by exact Hne. apply (H5 Hr k0 Hla). apply F2. apply Haft; assumption.
Qed.
End Body.

Lemma table_walk : forall new body fuel t ks t' r,
  careful_table new body -> NoDup (t_items t) -> length (t_items t ++ new) <= t_buckets t ->
  table_loop place shuffle grow fuel body t = (ks, t', r) ->
  (r = Ok true \/ r = Ok false)
  /\ (forall n, In n ks -> In n (t_items t) \/ exists i x, In (Change (TAdd n)) (body i x))
  /\ (forall n, (forall i x, ~ In (Change (TAdd n)) (body i x)) -> times n ks <= 1)
  /\ (r = Ok true -> forall n, In n (t_items t) -> leaves_alone body n -> times n ks = 1).
Proof.
  intros new body fuel t ks t' r Hb Hn Hroom H. unfold table_loop, loop, get_iterator in H.
  assert (Hg : good new (t_items t) t).
  { constructor; [exact Hn| |exact Hroom]. intros x Hx. apply in_or_app. left; exact Hx. }
  assert (Hat : forall k, hd_error (t_items t) = Some k -> In k (t_items t)).
  { intros k Hk. destruct (t_items t); [discriminate|]. injection Hk as ->. left; reflexivity. }
  destruct (table_rounds new (t_items t) body Hb fuel 0 t _ ks t' r Hg Hat H) as (H1 & H2 & _ & H4 & H5).
  split; [exact H1|]. split; [exact H2|]. split; [exact H4|]. intros Hr n Hi Hla. apply (H5 Hr n Hla).
  destruct (t_items t) as [|x l]; [destruct Hi|]. cbn [hd_error ahead]. destruct Hi as [-> |Hi]; [left; reflexivity|right]. exists [], l. split; [reflexivity|exact Hi].
Qed.
Lemma table_ends : forall body fuel t, careful_table [] body -> NoDup (t_items t) -> length (t_items t) <= t_buckets t -> length (t_items t) < fuel ->
  snd (table_loop place shuffle grow fuel body t) = Ok true.
Proof.
  intros body fuel t Hb Hn Hroom Hl. destruct (table_loop place shuffle grow fuel body t) as [[ks t'] r] eqn:E.
  assert (Hna : forall n i x, ~ In (Change (TAdd n)) (body i x)).
  { intros n i x Hi. destruct (Hb i x _ Hi) as [(n2 & _ & [] & _)|(n2 & Hd & _)]. discriminate. }
  destruct (table_walk [] body fuel t ks t' r Hb Hn ltac:(rewrite app_nil_r; exact Hroom) E) as (H1 & H2 & H3 & _). cbn [snd].
  destruct H1 as [-> | ->]; [reflexivity|exfalso]. apply rounds_used in E.
  assert (Hle : length ks <= length (t_items t)).
  { apply NoDup_incl_length.
    - apply (NoDup_count_occ N.eq_dec). intros n. apply (H3 n (Hna n)).
    - intros n Hi. destruct (H2 n Hi) as [H|(i & x & H)]; [exact H|destruct (Hna n i x H)]. }
  lia.
Qed.
End Table.

(** * Instructions *)
Local Notation p_eqb := (fun a b : nat * nat => Nat.eqb (fst a) (fst b)).
Local Notation l_rounds := (rounds (list nat) (nat * nat) list_edit list_items p_eqb list_apply list_spoils).
Lemma following_pos : forall l i j, i < length l -> following (nat * nat) p_eqb (j + i, nth i l 0) (combine (seq j (length l)) l) = hd_error (skipn (S i) (combine (seq j (length l)) l)).
Proof.
  induction l as [|x l IH]; intros i j H; [cbn in H; lia|]. cbn [length seq combine following]. destruct i as [|i].
  - rewrite Nat.add_0_r. cbn [fst nth]. rewrite Nat.eqb_refl. reflexivity.
  - cbn [fst]. replace (Nat.eqb j (j + S i)) with false by (symmetry; apply Nat.eqb_neq; lia). cbn [length] in H.
    replace (j + S i) with (S j + i) by lia. cbn [nth]. rewrite IH by lia. reflexivity.
Qed.
Lemma items_nth : forall l i, nth_error (list_items l) i = if Nat.ltb i (length l) then Some (i, nth i l 0) else None.
Proof.
  unfold list_items. intros l. assert (G : forall l j i, nth_error (combine (seq j (length l)) l) i = if Nat.ltb i (length l) then Some (j + i, nth i l 0) else None).
  { clear l. induction l as [|x l IH]; intros j i; [destruct i; reflexivity|]. cbn [length seq combine]. destruct i as [|i]; [cbn; rewrite Nat.add_0_r; reflexivity|].
    cbn [nth_error nth]. rewrite IH. replace (S j + i) with (j + S i) by lia. reflexivity. }
  intros i. apply (G l 0 i).
Qed.
Lemma hd_skipn : forall {A} (l : list A) i, hd_error (skipn i l) = nth_error l i.
Proof. intros A. induction l as [|x l IH]; intros [|i]; try reflexivity. cbn [skipn nth_error]. apply IH. Qed.
Lemma list_rounds : forall fuel body r i l, (forall i x, body i x = []) -> i <= length l ->
  l_rounds fuel body r l {| it_at := nth_error (list_items l) i; it_usable := true |}
  = (firstn fuel (skipn i (list_items l)), l, Ok (Nat.leb (length l - i) fuel)).
Proof.
  induction fuel as [|fuel IH]; intros body r i l Hb Hi.
  - cbn [rounds is_valid it_usable it_at]. rewrite items_nth. destruct (Nat.ltb_spec i (length l)) as [H|H].
    + cbn [firstn]. replace (Nat.leb (length l - i) 0) with false; [reflexivity|]. symmetry. apply Nat.leb_gt. lia.
    + cbn [firstn]. replace (Nat.leb (length l - i) 0) with true; [reflexivity|]. symmetry. apply Nat.leb_le. lia.
  - assert (Hlen : length (list_items l) = length l) by (unfold list_items; rewrite combine_length, seq_length; lia).
    cbn [rounds is_valid it_usable it_at]. pose proof (items_nth l i) as Hn. destruct (Nat.ltb_spec i (length l)) as [H|H].
    + rewrite Hn. cbn [value it_usable it_at]. rewrite Hb. cbn [fold_left next it_usable it_at].
      unfold list_items at 2. pose proof (following_pos l i 0 H) as Hf. cbn [Nat.add] in Hf. rewrite Hf, hd_skipn. fold (list_items l).
      rewrite (IH body (S r) (S i) l Hb H). f_equal; [f_equal|].
      * rewrite (skipn_cons_nth _ _ _ Hn). reflexivity.
      * f_equal. cbn [Nat.leb]. destruct (length l - i) eqn:E; [lia|]. cbn [Nat.leb]. f_equal. lia.
    + rewrite Hn. assert (i = length l) by lia. subst i. rewrite skipn_all2 by lia. rewrite Nat.sub_diag. reflexivity.
Qed.
Lemma list_walk : forall fuel body l, (forall i x, body i x = []) -> length l <= fuel ->
  list_loop fuel body l = (list_items l, l, Ok true).
Proof.
  intros fuel body l Hb Hl. unfold list_loop, loop, get_iterator.
  pose proof (list_rounds fuel body 0 0 l Hb (Nat.le_0_l _)) as H. rewrite <- hd_skipn in H. cbn [skipn] in H. rewrite H.
  rewrite firstn_all2 by (unfold list_items; rewrite combine_length, seq_length; lia). f_equal. f_equal. apply Nat.leb_le. lia.
Qed.
Lemma items_are : forall l, map snd (list_items l) = l.
Proof.
  unfold list_items. intros l. generalize 0. induction l as [|x l IH]; intros j; [reflexivity|]. cbn [length seq combine map snd]. f_equal. apply IH.
Qed.

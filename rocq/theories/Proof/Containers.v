(** Lemmas on the containers. *)
From Coq Require Import List NArith ZArith Bool Lia Sorted.
From Verif.Model Require Import Base SMap Containers.
From Verif.Spec Require Import Containers.
From Verif.Proof Require Import Tac SMap.
Import ListNotations.
Local Open Scope N_scope.

Lemma beq_true : forall a b, beq a b = true <-> a = b.
Proof. intros a b. unfold beq. destruct (list_eq_dec N.eq_dec a b); split; congruence. Qed.

Section D.
Context {V : Type}.
Implicit Types (m : smap V) (f : fmap bytes V).

(** The invariant that the history theorems carry. *)
Definition agrees m f : Prop :=
  sm_sorted m /\ sm_keys_ok m /\ (forall k, all_bytes k -> sm_find k m = f k).

Lemma agrees_looks_like : forall m f, agrees m f -> looks_like m f.
Proof.
  intros m f (Hs & Hk & Hf).
  assert (Hk' : Forall (fun e : bytes * V => all_bytes (fst e)) m) by exact Hk.
  split.
  - intros k Hb. unfold dict_find. rewrite Hf by exact Hb. reflexivity.
  - intros k Hb. unfold dict_try_find. apply Hf, Hb.
  - intros k Hb. unfold dict_contains, sm_contains, present. rewrite Hf by exact Hb. reflexivity.
  - intros k v Hb. rewrite <- Hf by exact Hb. symmetry. apply sm_find_in; assumption.
  - exact Hk'.
  - exact Hs.
  - exists (map fst m). split; [|split].
    + clear Hf Hk Hk'. induction Hs as [|a l Hs IH Hl]; [constructor|]. cbn. constructor; [|exact IH].
      intros Hin. apply in_map_iff in Hin. destruct Hin as (e & He & Hin).
      rewrite Forall_forall in Hl. specialize (Hl e Hin). rewrite He, ltb_irrefl in Hl. discriminate.
    + unfold dict_size. rewrite map_length. reflexivity.
    + intros k. split.
      * intros Hin. apply in_map_iff in Hin. destruct Hin as ([k' v] & He & Hin). cbn in He. subst k'.
        assert (Hb : all_bytes k). { rewrite Forall_forall in Hk'. apply (Hk' _ Hin). }
        split; [exact Hb|]. unfold present. rewrite <- Hf by exact Hb.
        destruct (sm_find_in m k v Hs Hk Hb) as [_ H]. rewrite (H Hin). reflexivity.
      * intros (Hb & Hp). unfold present in Hp. rewrite <- Hf in Hp by exact Hb.
        destruct (sm_find k m) as [v|] eqn:E; [|discriminate].
        apply sm_find_in in E; [|assumption..]. apply in_map_iff. exists (k, v). split; [reflexivity|exact E].
Qed.

Lemma agrees_insert : forall m f k v, agrees m f -> all_bytes k -> f k = None -> agrees (sm_insert k v m) (fm_set beq f k v).
Proof.
  intros m f k v (Hs & Hk & Hf) Hb Hn. split; [|split].
  - apply sm_insert_sorted, Hs.
  - apply sm_insert_keys_ok; assumption.
  - intros k2 Hb2. rewrite sm_find_insert by assumption. unfold fm_set, beq.
    rewrite (Hf _ Hb2). destruct (list_eq_dec N.eq_dec k2 k) as [->|Hne].
    + rewrite Hn. reflexivity.
    + destruct (f k2); reflexivity.
Qed.

Lemma agrees_insert_kept : forall m f k v, agrees m f -> all_bytes k -> f k <> None -> agrees (sm_insert k v m) f.
Proof.
  intros m f k v (Hs & Hk & Hf) Hb Hn. split; [|split].
  - apply sm_insert_sorted, Hs.
  - apply sm_insert_keys_ok; assumption.
  - intros k2 Hb2. rewrite sm_find_insert by assumption. rewrite (Hf _ Hb2).
    destruct (list_eq_dec N.eq_dec k2 k) as [->|Hne].
    + destruct (f k); [reflexivity|congruence].
    + destruct (f k2); reflexivity.
Qed.

Lemma agrees_remove : forall m f k, agrees m f -> all_bytes k -> agrees (sm_remove k m) (fm_del beq f k).
Proof.
  intros m f k (Hs & Hk & Hf) Hb. split; [|split].
  - apply sm_remove_sorted, Hs.
  - apply (sm_remove_forall (fun e => all_bytes (fst e))), Hk.
  - intros k2 Hb2. rewrite sm_find_remove by assumption. unfold fm_del, beq.
    rewrite (Hf _ Hb2). destruct (list_eq_dec N.eq_dec k2 k); reflexivity.
Qed.

Lemma agrees_ext : forall m f g, agrees m f -> (forall k, all_bytes k -> f k = g k) -> agrees m g.
Proof.
  intros m f g (Hs & Hk & Hf) He. split; [|split]; [assumption..|].
  intros k Hb. rewrite <- He by exact Hb. apply Hf, Hb.
Qed.

Lemma agrees_merge : forall other m f, Forall (fun e => all_bytes (fst e)) other -> ordered other -> agrees m f ->
  agrees (dict_merge m other) (fun k => match f k with Some v => Some v | None => sm_find k other end).
Proof.
  unfold dict_merge. induction other as [|[k v] other IH]; intros m f Hk Ho Ha.
  - cbn. eapply agrees_ext; [exact Ha|]. intros k _. destruct (f k); reflexivity.
  - cbn [fold_left fst snd].
    inversion Hk as [|? ? Hb Hk']; subst. inversion Ho as [|? ? Ho' Hlt]; subst. cbn [fst] in Hb.
    assert (Hother : forall k2, all_bytes k2 -> sm_find k2 ((k, v) :: other) =
              if list_eq_dec N.eq_dec k2 k then Some v else sm_find k2 other).
    { intros k2 Hb2. cbn [sm_find]. destruct (list_eq_dec N.eq_dec k2 k) as [->|Hne].
      - rewrite ltb_irrefl. reflexivity.
      - destruct (buffer_ltb k2 k) eqn:E1.
        + symmetry. apply sm_find_lt_none. revert Hlt. apply Forall_impl. intros e He. eapply ltb_trans; eassumption.
        + destruct (buffer_ltb k k2) eqn:E2; [reflexivity|]. exfalso. apply Hne. apply ltb_total; assumption. }
    destruct (f k) as [w|] eqn:E.
    + eapply agrees_ext; [apply IH; [exact Hk'|exact Ho'|apply agrees_insert_kept; [exact Ha|exact Hb|congruence]]|].
      intros k2 Hb2. cbn beta. rewrite Hother by exact Hb2.
      destruct (list_eq_dec N.eq_dec k2 k) as [->|]; [rewrite E|]; reflexivity.
    + eapply agrees_ext; [apply IH; [exact Hk'|exact Ho'|apply agrees_insert; [exact Ha|exact Hb|exact E]]|].
      intros k2 Hb2. cbn beta. rewrite Hother by exact Hb2. unfold fm_set, beq.
      destruct (list_eq_dec N.eq_dec k2 k) as [->|]; [rewrite E|]; reflexivity.
Qed.

Lemma dict_run_agrees : forall os m f, Forall op_keys_ok os -> no_replacement f os -> agrees m f ->
  agrees (fst (dict_run m os)) (fst (map_run f os)) /\ snd (dict_run m os) = snd (map_run f os).
Proof.
  induction os as [|o os IH]; intros m f Hk Hn Ha; [cbn; auto|].
  inversion Hk as [|? ? Ho Hk']; subst. destruct Hn as (Hr & Hn).
  cbn [dict_run map_run].
  assert (Hstep : agrees (fst (dict_step m o)) (fst (map_step f o)) /\ snd (dict_step m o) = snd (map_step f o)).
  { destruct o as [k v ow|k| |other]; cbn [dict_step map_step op_keys_ok] in *.
    - unfold dict_insert, fm_insert, sm_contains, present. destruct Ha as (Hs & Hkk & Hf).
      rewrite (Hf _ Ho). destruct ow; cbn [negb andb].
      + cbn [fst snd]. split; [|reflexivity]. apply agrees_insert; [split; [|split]; assumption|exact Ho|exact Hr].
      + destruct (f k) eqn:E; cbn [fst snd].
        * split; [|reflexivity]. split; [|split]; assumption.
        * split; [|reflexivity]. apply agrees_insert; [split; [|split]; assumption|exact Ho|exact E].
    - unfold dict_remove, fm_remove, present. destruct Ha as (Hs & Hkk & Hf). rewrite (Hf _ Ho).
      destruct (f k) eqn:E; cbn [fst snd].
      + split; [|reflexivity]. apply agrees_remove; [split; [|split]; assumption|exact Ho].
      + split; [|reflexivity]. apply (agrees_ext _ f); [split; [|split]; assumption|].
        intros k2 Hb2. unfold fm_del, beq. destruct (list_eq_dec N.eq_dec k2 k) as [->|]; congruence.
    - cbn [fst snd]. split; [|reflexivity]. split; [|split].
      + constructor.
      + constructor.
      + intros k _. reflexivity.
    - cbn [fst snd]. split; [|reflexivity]. destruct Ho. apply agrees_merge; assumption. }
  destruct (dict_step m o) as [m1 a1] eqn:E1. destruct (map_step f o) as [f1 a2] eqn:E2.
  cbn [fst snd] in *. destruct Hstep as (Ha1 & ->).
  destruct (IH m1 f1 Hk' Hn Ha1) as (Ha2 & Hans).
  destruct (dict_run m1 os) as [m2 l2]. destruct (map_run f1 os) as [f2 l2']. cbn [fst snd] in *.
  split; [exact Ha2|]. congruence.
Qed.

Lemma agrees_empty : agrees [] fm_empty.
Proof. split; [constructor|split; [constructor|]]. intros k _. reflexivity. Qed.

Lemma overwrite_keeps : forall m f k v w, agrees m f -> all_bytes k -> f k = Some w ->
  exists m', dict_step m (DInsert k v true) = (m', Ok true) /\ agrees m' f.
Proof.
  intros m f k v w Ha Hb Hf. exists (sm_insert k v m). split; [reflexivity|].
  apply agrees_insert_kept; [exact Ha|exact Hb|congruence].
Qed.
End D.

Section A.
Context {V : Type}.

(** [s] describes list [l]. *)
Definition seq_of (l : list V) (s : seq V) : Prop :=
  slen s = N.of_nat (length l) /\ forall i, sget s i = nth_error l (N.to_nat i).

Lemma nth_insert : forall (l : list V) p v i, (p <= length l)%nat ->
  nth_error (firstn p l ++ v :: skipn p l) i =
  if Nat.ltb i p then nth_error l i else if Nat.eqb i p then Some v else nth_error l (i - 1).
Proof.
  intros l p v i Hp.
  assert (Hlen : length (firstn p l) = p) by (rewrite firstn_length; lia).
  destruct (Nat.ltb_spec i p) as [Hi|Hi].
  - rewrite nth_error_app1 by lia.
    rewrite <- (firstn_skipn p l) at 2. rewrite nth_error_app1 by lia. reflexivity.
  - rewrite nth_error_app2 by lia. rewrite Hlen. destruct (Nat.eqb_spec i p) as [->|Hne].
    + rewrite Nat.sub_diag. reflexivity.
    + destruct (i - p)%nat as [|j] eqn:Ej; [lia|]. cbn [nth_error].
      rewrite <- (firstn_skipn p l) at 2. rewrite nth_error_app2 by lia. rewrite Hlen. f_equal. lia.
Qed.

Lemma nth_remove : forall (l : list V) p i, (p < length l)%nat ->
  nth_error (firstn p l ++ skipn (S p) l) i = if Nat.ltb i p then nth_error l i else nth_error l (i + 1).
Proof.
  intros l p i Hp.
  assert (Hlen : length (firstn p l) = p) by (rewrite firstn_length; lia).
  destruct (Nat.ltb_spec i p) as [Hi|Hi].
  - rewrite nth_error_app1 by lia.
    rewrite <- (firstn_skipn p l) at 2. rewrite nth_error_app1 by lia. reflexivity.
  - rewrite nth_error_app2 by lia. rewrite Hlen.
    assert (Hlen' : length (firstn (S p) l) = S p) by (rewrite firstn_length; lia).
    rewrite <- (firstn_skipn (S p) l) at 2. rewrite nth_error_app2 by lia. rewrite Hlen'. f_equal. lia.
Qed.

Lemma nth_set : forall (l : list V) p v i, (p < length l)%nat ->
  nth_error (firstn p l ++ v :: skipn (S p) l) i = if Nat.eqb i p then Some v else nth_error l i.
Proof.
  intros l p v i Hp.
  assert (Hlen : length (firstn p l) = p) by (rewrite firstn_length; lia).
  destruct (Nat.eqb_spec i p) as [->|Hne].
  - rewrite nth_error_app2 by lia. rewrite Hlen, Nat.sub_diag. reflexivity.
  - destruct (Nat.lt_ge_cases i p) as [Hi|Hi].
    + rewrite nth_error_app1 by lia.
      rewrite <- (firstn_skipn p l) at 2. rewrite nth_error_app1 by lia. reflexivity.
    + rewrite nth_error_app2 by lia. rewrite Hlen. destruct (i - p)%nat as [|j] eqn:Ej; [lia|]. cbn [nth_error].
      assert (Hlen' : length (firstn (S p) l) = S p) by (rewrite firstn_length; lia).
      rewrite <- (firstn_skipn (S p) l) at 2. rewrite nth_error_app2 by lia. rewrite Hlen'. f_equal. lia.
Qed.

Lemma arr_step_seq : forall o (l : list V) s, seq_of l s ->
  seq_of (fst (arr_step l o)) (fst (seq_step s o)) /\ snd (arr_step l o) = snd (seq_step s o).
Proof.
  intros o l s (Hl & Hg). destruct o as [v|p v|p|p v|]; cbn [arr_step seq_step].
  - cbn [fst snd]. split; [|reflexivity]. unfold arr_append. split; cbn [slen sget].
    + rewrite app_length. cbn [length]. lia.
    + intros i. destruct (N.eqb_spec i (slen s)) as [->|Hne].
      * rewrite nth_error_app2 by lia. replace (N.to_nat (slen s) - length l)%nat with 0%nat by lia. reflexivity.
      * rewrite Hg. destruct (Nat.lt_ge_cases (N.to_nat i) (length l)) as [Hi|Hi].
        -- rewrite nth_error_app1 by lia. reflexivity.
        -- transitivity (@None V); [apply nth_error_None; lia|]. symmetry. apply nth_error_None. rewrite app_length. cbn [length]. lia.
  - unfold arr_insert, arr_size. destruct (N.ltb_spec (N.of_nat (length l)) p) as [Hp|Hp];
      destruct (N.leb_spec p (slen s)) as [Hp'|Hp']; try lia.
    + split; [split; assumption|reflexivity].
    + cbn [fst snd]. split; [|reflexivity]. split; cbn [slen sget].
      * rewrite app_length, firstn_length. cbn [length]. rewrite skipn_length. lia.
      * intros i. rewrite nth_insert by lia. rewrite !Hg. rewrite N2Nat.inj_sub.
        destruct (N.ltb_spec i p), (Nat.ltb_spec (N.to_nat i) (N.to_nat p)); try lia; [reflexivity|].
        destruct (N.eqb_spec i p), (Nat.eqb_spec (N.to_nat i) (N.to_nat p)); try lia; reflexivity.
  - unfold arr_remove, arr_size. destruct (N.leb_spec (N.of_nat (length l)) p) as [Hp|Hp];
      destruct (N.ltb_spec p (slen s)) as [Hp'|Hp']; try lia.
    + split; [split; assumption|reflexivity].
    + cbn [fst snd]. split; [|reflexivity]. split; cbn [slen sget].
      * rewrite app_length, firstn_length, skipn_length. lia.
      * intros i. rewrite nth_remove by lia. rewrite !Hg. rewrite N2Nat.inj_add.
        destruct (N.ltb_spec i p), (Nat.ltb_spec (N.to_nat i) (N.to_nat p)); try lia; reflexivity.
  - unfold arr_set, arr_size. destruct (N.leb_spec (N.of_nat (length l)) p) as [Hp|Hp];
      destruct (N.ltb_spec p (slen s)) as [Hp'|Hp']; try lia.
    + split; [split; assumption|reflexivity].
    + cbn [fst snd]. split; [|reflexivity]. split; cbn [slen sget].
      * rewrite app_length, firstn_length. cbn [length]. rewrite skipn_length. lia.
      * intros i. rewrite nth_set by lia. rewrite !Hg.
        destruct (N.eqb_spec i p), (Nat.eqb_spec (N.to_nat i) (N.to_nat p)); try lia; reflexivity.
  - cbn [fst snd]. split; [|reflexivity]. split; [reflexivity|].
    intros i. cbn. destruct (N.to_nat i); reflexivity.
Qed.

Lemma arr_run_seq : forall os (l : list V) s, seq_of l s ->
  seq_of (fst (arr_run l os)) (fst (seq_run s os)) /\ snd (arr_run l os) = snd (seq_run s os).
Proof.
  induction os as [|o os IH]; intros l s Hs; [cbn; auto|].
  cbn [arr_run seq_run]. pose proof (arr_step_seq o l s Hs) as H.
  destruct (arr_step l o) as [l1 a1]. destruct (seq_step s o) as [s1 a2]. cbn [fst snd] in H. destruct H as (H1 & ->).
  destruct (IH l1 s1 H1) as (H2 & H3).
  destruct (arr_run l1 os) as [l2 r2]. destruct (seq_run s1 os) as [s2 r2']. cbn [fst snd] in *.
  split; [exact H2|congruence].
Qed.
End A.

Section T.
Context {V : Type}.
Definition attr_agrees (m : attrs V) (f : fmap N V) : Prop := forall t, at_find t m = f t.

Lemma at_find_filter : forall (m : attrs V) t t2,
  at_find t2 (filter (fun e => negb (fst e =? t)) m) = if t2 =? t then None else at_find t2 m.
Proof.
  induction m as [|[t' v] m IH]; intros t t2; cbn [filter at_find fst].
  - cif; reflexivity.
  - destruct (N.eqb_spec t' t) as [->|Hne]; cbn [negb].
    + rewrite IH. destruct (N.eqb_spec t2 t) as [->|]; [reflexivity|].
      destruct (N.eqb_spec t t2); [congruence|reflexivity].
    + cbn [at_find]. rewrite IH. destruct (N.eqb_spec t' t2) as [->|]; [|reflexivity].
      destruct (N.eqb_spec t2 t); [congruence|reflexivity].
Qed.

Lemma attr_run_agrees : forall os (m : attrs V) f, no_attr_replacement f os -> attr_agrees m f ->
  attr_agrees (fst (attr_run m os)) (fst (amap_run f os)) /\ snd (attr_run m os) = snd (amap_run f os).
Proof.
  induction os as [|o os IH]; intros m f Hn Ha; [cbn; auto|].
  destruct Hn as (Hr & Hn). cbn [attr_run amap_run].
  assert (Hstep : attr_agrees (fst (attr_step m o)) (fst (amap_step f o)) /\ snd (attr_step m o) = snd (amap_step f o)).
  { destruct o as [t v ow|t|]; cbn [attr_step amap_step] in *.
    - assert (Hset : f t = None -> attr_agrees ((t, v) :: m) (fm_set N.eqb f t v)).
      { intros E t2. cbn [at_find]. unfold fm_set. rewrite (Ha t2).
        destruct (N.eqb_spec t t2), (N.eqb_spec t2 t); congruence. }
      unfold attr_add, fm_insert, attr_contains, present. rewrite (Ha t). destruct ow; cbn [negb andb].
      + rewrite Hr. cbn [fst snd]. split; [apply Hset, Hr|reflexivity].
      + destruct (f t) eqn:E; cbn [fst snd]; split; try reflexivity; [exact Ha|apply Hset; reflexivity].
    - unfold attr_remove, fm_remove, attr_contains, present. rewrite (Ha t).
      destruct (f t) eqn:E; cbn [fst snd]; (split; [|reflexivity]); intros t2.
      + rewrite at_find_filter, (Ha t2). reflexivity.
      + unfold fm_del. rewrite (Ha t2). destruct (N.eqb_spec t2 t) as [->|]; congruence.
    - cbn [fst snd]. split; [|reflexivity]. intros t. reflexivity. }
  destruct (attr_step m o) as [m1 a1] eqn:E1. destruct (amap_step f o) as [f1 a2] eqn:E2.
  cbn [fst snd] in *. destruct Hstep as (Ha1 & ->).
  destruct (IH m1 f1 Hn Ha1) as (Ha2 & Hans).
  destruct (attr_run m1 os) as [m2 l2]. destruct (amap_run f1 os) as [f2 l2']. cbn [fst snd] in *.
  split; [exact Ha2|]. congruence.
Qed.
End T.

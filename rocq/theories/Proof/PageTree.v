(** Facts about page trees. *)
From Coq Require Import List NArith ZArith Bool Lia.
From Verif.Model Require Import Base Arith Containers PageTree.
From Verif.Spec Require Import PageTree.
From Verif.Proof Require Import Tac.
Import ListNotations.
Local Open Scope N_scope.

Scheme po_ind2 := Induction for pages_of Sort Prop
with pa_ind2 := Induction for pages_of_all Sort Prop.
Combined Scheme po_mut from po_ind2, pa_ind2.

(** sizes *)
Definition len (l : list N) : N := N.of_nat (length l).
Lemma len_app : forall a b, len (a ++ b) = len a + len b.
Proof. intros. unfold len. rewrite app_length. lia. Qed.

Lemma wadd_small : forall a b, a + b < 9223372036854775808 -> wadd a b = a + b.
Proof. intros. unfold wadd. apply N.mod_small. lia. Qed.
Lemma wsub_small : forall a b, b <= a -> a < 18446744073709551616 -> wsub a b = a - b.
Proof.
  intros. unfold wsub. replace (a + 18446744073709551616 - b) with (a - b + 1 * 18446744073709551616) by lia.
  rewrite N.mod_add by lia. apply N.mod_small. lia.
Qed.

Lemma convert_size : forall z, (0 <= z < 9223372036854775808)%Z -> safe_convert uint64_t int64_t z = Ok z.
Proof.
  intros z H. unfold safe_convert. replace (is_in_range uint64_t int64_t z) with true.
  - f_equal. unfold wrap. cbn [sgn Arith.bits uint64_t andb]. change (2 ^ Z.of_N 64)%Z with 18446744073709551616%Z. apply Z.mod_small. lia.
  - unfold is_in_range. cbn [sgn int64_t uint64_t Bool.eqb]. rewrite (proj2 (Z.ltb_ge _ _)) by lia. reflexivity.
Qed.

Lemma count_read : forall l, len l < 9223372036854775808 -> size_of_count (Some (Z.of_nat (length l))) = Ok (len l).
Proof.
  intros l H. unfold size_of_count. unfold len in *. rewrite convert_size by lia. cbn [rbind]. f_equal. lia.
Qed.

(** nodes *)
Lemma put_same : forall h n v, put h n v n = Some v.
Proof. intros. unfold put. rewrite N.eqb_refl. reflexivity. Qed.
Lemma put_other : forall h n v m, m <> n -> put h n v m = h m.
Proof. intros. unfold put. rewrite (proj2 (N.eqb_neq m n)) by assumption. reflexivity. Qed.

Lemma pages_unique : forall h,
  (forall n l, pages_of h n l -> forall l', pages_of h n l' -> l = l') /\
  (forall ks l, pages_of_all h ks l -> forall l', pages_of_all h ks l' -> l = l').
Proof.
  intros h. apply po_mut.
  - intros n par E l' H. inversion H; subst; congruence.
  - intros n c ks par l E Ha IH l' H. inversion H; subst; [congruence|].
    rewrite E in H0. injection H0 as <- <- <-. auto.
  - intros l' H. inversion H. reflexivity.
  - intros k ks l l' H1 IH1 H2 IH2 l0 H. inversion H; subst. f_equal; auto.
Qed.

(** a finite tree has no node below itself *)
Fixpoint height (h : pheap) (k : nat) (n : N) : Prop :=
  match k with
  | O => False
  | S k => match h n with
           | Some (Page _) => True
           | Some (Tree _ (Some ks) _) => Forall (height h k) ks
           | _ => False
           end
  end.
Lemma height_more : forall h k n, height h k n -> forall k', (k <= k')%nat -> height h k' n.
Proof.
  intros h. induction k as [|k IH]; intros n H k' Hk; [contradiction|].
  destruct k' as [|k']; [lia|]. cbn [height] in *. destruct (h n) as [[p|c [ks|] p|]|]; auto.
  eapply Forall_impl; [|exact H]. intros m Hm. apply (IH m Hm). lia.
Qed.
Lemma pages_height : forall h,
  (forall n l, pages_of h n l -> exists k, height h k n) /\
  (forall ks l, pages_of_all h ks l -> exists k, Forall (height h k) ks).
Proof.
  intros h. apply po_mut.
  - intros n par E. exists 1%nat. cbn [height]. rewrite E. exact I.
  - intros n c ks par l E Ha [k Hk]. exists (S k). cbn [height]. rewrite E. exact Hk.
  - exists O. constructor.
  - intros k ks l l' H1 [k1 Hk1] H2 [k2 Hk2]. exists (Nat.max k1 k2). apply Forall_cons.
    + apply (height_more h k1); [assumption|lia].
    + eapply Forall_impl; [|exact Hk2]. intros m Hm. apply (height_more h k2); [assumption|lia].
Qed.
Lemma below_height : forall h n m, below h n m -> forall k, height h k n -> height h k m.
Proof.
  intros h n m H. induction H as [n|n c ks par k m E Hin Hb IH]; intros k0 Hk; [assumption|].
  destruct k0 as [|k0]; [contradiction|]. cbn [height] in Hk. rewrite E in Hk. rewrite Forall_forall in Hk.
  specialize (IH k0 (Hk k Hin)). apply (height_more h k0); [assumption|lia].
Qed.
Lemma not_below_itself : forall h n c ks par l k, h n = Some (Tree c (Some ks) par) -> pages_of h n l -> In k ks -> ~ below h k n.
Proof.
  intros h n c ks par l k E Hp Hin Hb. destruct (proj1 (pages_height h) n l Hp) as [d Hd].
  revert Hd. induction d as [|d IH]; intros Hd; [contradiction|]. cbn [height] in Hd. rewrite E in Hd. rewrite Forall_forall in Hd.
  apply IH. apply (below_height h k n Hb). apply Hd. exact Hin.
Qed.

Lemma pages_of_kids : forall h n c ks par l, h n = Some (Tree c ks par) -> pages_of h n l ->
  exists ks', ks = Some ks' /\ pages_of_all h ks' l.
Proof. intros h n c ks par l E H. inversion H; subst; rewrite E in H0; [discriminate|]. injection H0 as -> -> ->. eauto. Qed.
Lemma pages_of_page : forall h n par l, h n = Some (Page par) -> pages_of h n l -> l = [n].
Proof. intros h n par l E H. inversion H; subst; [reflexivity|congruence]. Qed.
Lemma pages_all_in : forall h ks l k, pages_of_all h ks l -> In k ks -> exists lk, pages_of h k lk.
Proof.
  intros h ks l k H. induction H as [|k0 ks l l' H1 H2 IH]; intros Hin; [contradiction|].
  destruct Hin as [->|Hin]; eauto.
Qed.
Lemma pages_all_app : forall h a b la lb, pages_of_all h a la -> pages_of_all h b lb -> pages_of_all h (a ++ b) (la ++ lb).
Proof.
  intros h a b la lb H Hb. induction H as [|k ks l l' H1 H2 IH]; [exact Hb|].
  cbn [app]. rewrite <- app_assoc. constructor; assumption.
Qed.
Lemma pages_all_split : forall h a b l, pages_of_all h (a ++ b) l ->
  exists la lb, l = la ++ lb /\ pages_of_all h a la /\ pages_of_all h b lb.
Proof.
  intros h. induction a as [|k a IH]; intros b l H.
  - exists [], l. repeat split; [constructor|exact H].
  - cbn [app] in H. inversion H as [|k0 ks0 l1 l2 H1 H2]; subst. destruct (IH _ _ H2) as (la & lb & -> & Ha & Hb).
    exists (l1 ++ la), lb. rewrite app_assoc. split; [reflexivity|]. split; [constructor; assumption|assumption].
Qed.
Lemma pages_all_flat : forall h ks, Forall (is_page h) ks -> pages_of_all h ks ks.
Proof.
  intros h ks H. induction H as [|k ks [p Hp] H IH]; [constructor|].
  change (k :: ks) with ([k] ++ ks) at 2. constructor; [econstructor; eassumption|assumption].
Qed.
Lemma below_kid : forall h n c ks par k, h n = Some (Tree c (Some ks) par) -> In k ks -> below h n k.
Proof. intros. eapply be_kid; eauto. constructor. Qed.
Lemma below_trans : forall h a b c, below h a b -> below h b c -> below h a c.
Proof. intros h a b c H. induction H; intros; [assumption|]. eapply be_kid; eauto. Qed.
Lemma counts_below : forall h a b, counts_right h a -> below h a b -> counts_right h b.
Proof. intros h a b H Hb n c ks par l Hn. apply H. eapply below_trans; eauto. Qed.
Lemma there_below : forall h a b, counts_there h a -> below h a b -> counts_there h b.
Proof. intros h a b H Hb n c ks par Hn. apply H. eapply below_trans; eauto. Qed.
Lemma right_there : forall h n l, pages_of h n l -> counts_right h n -> counts_there h n.
Proof.
  intros h n l Hp H m c ks par Hb E. assert (Hm : exists lm, pages_of h m lm).
  { clear E H. revert l Hp. induction Hb as [n|n c0 ks0 par0 k m E Hin Hb IH]; intros l Hp; [eauto|].
    destruct (pages_of_kids _ _ _ _ _ _ E Hp) as (ks' & [= <-] & Ha). destruct (pages_all_in _ _ _ _ Ha Hin) as [lk Hk]. eauto. }
  destruct Hm as [lm Hm]. rewrite (H m c ks par lm Hb E Hm). discriminate.
Qed.

(** ** finding page n *)
Lemma childs_pages : forall h ks l, pages_of_all h ks l ->
  has_tree_childs h ks = Ok true \/ (has_tree_childs h ks = Ok false /\ l = ks /\ Forall (is_page h) ks).
Proof.
  intros h ks l H. induction H as [|k ks l l' H1 H2 IH]; cbn [has_tree_childs].
  - right. repeat split. constructor.
  - unfold node_at. inversion H1; subst; rewrite H; cbn [rbind is_tree].
    + destruct IH as [IH|(IH & -> & Hf)]; [left; exact IH|]. right. split; [exact IH|]. split; [reflexivity|].
      apply Forall_cons; [exists par; assumption|assumption].
    + left. reflexivity.
Qed.

Definition found (l : list N) (i : N) : res N :=
  match nth_error l (N.to_nat i) with Some p => Ok p | None => Throw EGeneral end.

Lemma found_left : forall a b i, i < len a -> found (a ++ b) i = found a i.
Proof. intros a b i H. unfold found. rewrite nth_error_app1; [reflexivity|]. unfold len in H. lia. Qed.
Lemma found_right : forall a b i, len a <= i -> found (a ++ b) i = found b (i - len a).
Proof.
  intros a b i H. unfold found. rewrite nth_error_app2; [|unfold len in H; lia].
  replace (N.to_nat (i - len a)) with (N.to_nat i - length a)%nat by (unfold len; lia). reflexivity.
Qed.

Lemma page_search : forall h,
  (forall n l, pages_of h n l -> is_pages h n -> counts_right h n ->
     exists F, forall fuel page processed, (F <= fuel)%nat -> processed <= page -> page < 18446744073709551616 -> processed + len l < 9223372036854775808 ->
       page_internal fuel h n page processed = found l (page - processed)) /\
  (forall ks l, pages_of_all h ks l -> (forall k, In k ks -> counts_right h k) ->
     exists F, forall fuel page processed, (F <= fuel)%nat -> processed <= page -> page < 18446744073709551616 -> processed + len l < 9223372036854775808 ->
       page_loop (page_internal fuel h) h page processed ks = found l (page - processed)).
Proof.
  intros h. apply po_mut.
  - intros n par E [c [ks [p E']]]. congruence.
  - intros n c ks par l E Ha IH _ Hc. destruct IH as [F HF].
    { intros k Hk. apply (counts_below h n); [assumption|]. eapply below_kid; eauto. }
    exists (S F). intros fuel page processed Hf Hp Hpp Hl. destruct fuel as [|fuel]; [lia|]. cbn [page_internal].
    unfold tree_at. rewrite E. cbn [rbind snd kids_of]. apply HF; lia.
  - intros _. exists O. intros. cbn [page_loop]. unfold found. destruct (N.to_nat _); reflexivity.
  - intros k ks l l' H1 IH1 H2 IH2 Hc.
    destruct IH2 as [F2 HF2]. { intros k' Hk'. apply Hc. right. assumption. }
    specialize (Hc k (or_introl eq_refl)).
    inversion H1; subst.
    + exists F2. intros fuel page processed Hf Hp Hpp Hl. cbn [page_loop]. unfold node_at. rewrite H. cbn [rbind].
      rewrite len_app in Hl. change (len [k]) with 1 in Hl.
      destruct (processed =? page) eqn:Eq; cbn [negb].
      * assert (page - processed = 0) as -> by lia. reflexivity.
      * rewrite wadd_small by lia. rewrite HF2 by lia. rewrite found_right; change (len [k]) with 1; [|lia].
        f_equal. lia.
    + destruct IH1 as [F1 HF1]; [exists c, ks0, par; assumption|assumption|].
      exists (Nat.max F1 F2). intros fuel page processed Hf Hp Hpp Hl. cbn [page_loop]. unfold node_at. rewrite H. cbn [rbind].
      rewrite len_app in Hl. rewrite (Hc k c (Some ks0) par l (be_refl h k) H H1). rewrite count_read by lia. cbn [rbind].
      rewrite wadd_small by lia. destruct (processed + len l <=? page) eqn:Eq.
      * rewrite HF2 by lia. rewrite found_right by lia. f_equal. lia.
      * cbn [kids_of rbind]. rewrite found_left by lia.
        destruct (childs_pages _ _ _ H0) as [E|(E & -> & Hpg)]; rewrite E; cbn [rbind]; [apply HF1; lia|].
        rewrite wsub_small by lia. unfold found, arr_get, arr_size. unfold len in Eq.
        rewrite (proj2 (N.ltb_lt _ _)) by lia.
        destruct (nth_error ks0 (N.to_nat (page - processed))) as [r|] eqn:En; [|apply nth_error_None in En; lia].
        cbn [rbind]. rewrite Forall_forall in Hpg. destruct (Hpg r (nth_error_In _ _ En)) as [pp Ep]. rewrite Ep. reflexivity.
Qed.

(** ** counting *)
Definition same_shape (a b : option node) : Prop :=
  match a, b with
  | Some (Page _), Some (Page _) => True
  | Some (Tree c ks _), Some (Tree c' ks' _) => ks = ks' /\ (c = None <-> c' = None)
  | Some Bad, Some Bad => True
  | None, None => True
  | _, _ => False
  end.
Lemma shape_refl : forall a, same_shape a a.
Proof. intros [[p|c ks p|]|]; cbn; tauto. Qed.
Lemma shape_page : forall a b par, same_shape a b -> a = Some (Page par) -> exists p, b = Some (Page p).
Proof. intros a b par H ->. destruct b as [[p|c ks p|]|]; cbn in H; try contradiction; eauto. Qed.
Lemma shape_tree : forall a b c ks par, same_shape a b -> a = Some (Tree c ks par) -> exists c' p, b = Some (Tree c' ks p) /\ (c = None <-> c' = None).
Proof. intros a b c ks par H ->. destruct b as [[p|c' ks' p|]|]; cbn in H; try contradiction. destruct H as [-> H]. eauto. Qed.
Lemma shape_sym : forall a b, same_shape a b -> same_shape b a.
Proof. intros [[p|c ks p|]|] [[p'|c' ks' p'|]|]; cbn; tauto || (intros [-> H]; split; [reflexivity|tauto]). Qed.
Lemma shape_trans : forall a b c, same_shape a b -> same_shape b c -> same_shape a c.
Proof.
  intros [[p|c ks p|]|] [[p'|c' ks' p'|]|] [[p2|c2 ks2 p2|]|]; cbn; try tauto.
  intros [-> H] [-> H']. split; [reflexivity|tauto].
Qed.

Lemma pages_shape : forall h h',
  (forall n l, pages_of h n l -> (forall m, below h n m -> same_shape (h m) (h' m)) -> pages_of h' n l) /\
  (forall ks l, pages_of_all h ks l -> (forall k m, In k ks -> below h k m -> same_shape (h m) (h' m)) -> pages_of_all h' ks l).
Proof.
  intros h h'. apply po_mut.
  - intros n par E H. destruct (shape_page _ _ _ (H n (be_refl h n)) E) as [p E']. econstructor; eassumption.
  - intros n c ks par l E Ha IH H. destruct (shape_tree _ _ _ _ _ (H n (be_refl h n)) E) as (c' & p & E' & _).
    econstructor; [exact E'|]. apply IH. intros k m Hk Hb. apply H. eapply be_kid; eauto.
  - intros _. constructor.
  - intros k ks l l' H1 IH1 H2 IH2 H. constructor.
    + apply IH1. intros m Hb. apply (H k); [left; reflexivity|assumption].
    + apply IH2. intros k' m Hk Hb. apply (H k'); [right|]; assumption.
Qed.
Lemma below_shape : forall h h', forall n m, (forall m, below h n m -> same_shape (h m) (h' m)) -> below h n m -> below h' n m.
Proof.
  intros h h' n m H Hb. induction Hb as [n|n c ks par k m E Hin Hb IH]; [constructor|].
  destruct (shape_tree _ _ _ _ _ (H n (be_refl h n)) E) as (c' & p & E' & _).
  eapply be_kid; [exact E'|exact Hin|]. apply IH. intros m0 Hm. apply H. eapply be_kid; eauto.
Qed.

(** [h'] differs from [h] only in counts, which are right where they differ *)
Definition better (h h' : pheap) (S_ : N -> Prop) : Prop :=
  forall m, h' m = h m \/
    exists c ks par l, S_ m /\ h m = Some (Tree (Some c) (Some ks) par) /\ pages_of h m l /\ h' m = Some (Tree (Some (Z.of_nat (length l))) (Some ks) par).
Lemma better_shape : forall h h' S_, better h h' S_ -> forall m, same_shape (h m) (h' m).
Proof.
  intros h h' S_ H m. destruct (H m) as [->|(c & ks & par & l & _ & E & _ & E')]; [apply shape_refl|].
  rewrite E, E'. cbn. split; [reflexivity|]. split; discriminate.
Qed.
Lemma better_pages : forall h h' S_, better h h' S_ -> forall n l, pages_of h n l <-> pages_of h' n l.
Proof.
  intros h h' S_ H n l. split; intros Hp.
  - apply (proj1 (pages_shape h h') n l Hp). intros. eapply better_shape; eauto.
  - apply (proj1 (pages_shape h' h) n l Hp). intros. apply shape_sym. eapply better_shape; eauto.
Qed.
Lemma better_below : forall h h' S_, better h h' S_ -> forall n m, below h n m <-> below h' n m.
Proof.
  intros h h' S_ H n m. split; intros Hp.
  - apply (below_shape h h'); [|assumption]. intros. eapply better_shape; eauto.
  - apply (below_shape h' h); [|assumption]. intros. apply shape_sym. eapply better_shape; eauto.
Qed.
Lemma better_trans : forall h h1 h2 (A B C : N -> Prop), better h h1 A -> better h1 h2 B -> (forall m, A m -> C m) -> (forall m, B m -> C m) -> better h h2 C.
Proof.
  intros h h1 h2 A B C H1 H2 HA HB m. destruct (H2 m) as [E|(c & ks & par & l & Hb & E & Hp & E')].
  - rewrite E. destruct (H1 m) as [E1|(c & ks & par & l & Ha & E1 & Hp & E')]; [left; assumption|]. right. exists c, ks, par, l. auto.
  - apply (better_pages _ _ _ H1) in Hp. right.
    destruct (H1 m) as [E1|(c1 & ks1 & par1 & l1 & Ha & E1 & Hp1 & E1')].
    + exists c, ks, par, l. rewrite <- E1. auto.
    + rewrite E1' in E. injection E as <- <- <-. exists c1, ks1, par1, l. split; [auto|]. split; [assumption|]. split; assumption.
Qed.
(** a right count stays right *)
Definition right_at (h : pheap) (m : N) : Prop := forall c ks par l, h m = Some (Tree c ks par) -> pages_of h m l -> c = Some (Z.of_nat (length l)).
Lemma better_right : forall h h' S_ m, better h h' S_ -> right_at h m -> right_at h' m.
Proof.
  intros h h' S_ m H Hr c ks par l E Hp. apply (better_pages _ _ _ H) in Hp.
  destruct (H m) as [E1|(c1 & ks1 & par1 & l1 & Ha & E1 & Hp1 & E1')].
  - rewrite E1 in E. apply (Hr _ _ _ _ E Hp).
  - rewrite E1' in E. injection E as <- <- <-. rewrite (proj1 (pages_unique h) _ _ Hp1 _ Hp). reflexivity.
Qed.

Lemma better_refl : forall h S_, better h h S_.
Proof. intros h S_ m. left. reflexivity. Qed.

Lemma counting : forall h,
  (forall n l, pages_of h n l ->
     exists F, forall h0 A, better h h0 A -> counts_there h n -> len l < 9223372036854775808 ->
       exists h1, (forall fuel, (F <= fuel)%nat -> update_counts fuel h0 n = (h1, Ok (len l))) /\
         better h0 h1 (below h n) /\ (forall m, below h n m -> right_at h1 m)) /\
  (forall ks l, pages_of_all h ks l ->
     exists F, forall h0 A total, better h h0 A -> (forall k, In k ks -> counts_there h k) -> total + len l < 9223372036854775808 ->
       exists h1, (forall fuel, (F <= fuel)%nat -> count_loop (update_counts fuel) h0 ks total = (h1, Ok (total + len l))) /\
         better h0 h1 (fun m => exists k, In k ks /\ below h k m) /\ (forall k m, In k ks -> below h k m -> right_at h1 m)).
Proof.
  intros h. apply po_mut.
  - intros n par E. exists 1%nat. intros h0 A Hb Ht Hl. exists h0.
    destruct (shape_page _ _ _ (better_shape _ _ _ Hb n) E) as [p Ep]. split; [|split].
    + intros fuel Hf. destruct fuel as [|fuel]; [lia|]. cbn [update_counts]. rewrite Ep. reflexivity.
    + apply better_refl.
    + intros m Hm. inversion Hm; subst; [|congruence]. intros c ks par0 l E' _. congruence.
  - intros n c ks par l E Ha IH. destruct IH as [F HF]. exists (S F). intros h0 A Hb Ht Hl.
    destruct (HF h0 A 0 Hb) as (h1 & Hc & Hb1 & Hr).
    { intros k Hk. apply (there_below h n); [assumption|]. eapply below_kid; eauto. }
    { lia. }
    assert (Hpn : pages_of h n l) by (econstructor; eassumption).
    assert (Hp0 : pages_of h0 n l) by (apply (better_pages _ _ _ Hb); assumption).
    assert (Hp1 : pages_of h1 n l) by (apply (better_pages _ _ _ Hb1); assumption).
    destruct (shape_tree _ _ _ _ _ (better_shape _ _ _ Hb n) E) as (c0 & p0 & E0 & Hc0).
    destruct (shape_tree _ _ _ _ _ (better_shape _ _ _ Hb1 n) E0) as (c1 & p1 & E1 & Hc1).
    assert (Hcn : c <> None) by (apply (Ht n c (Some ks) par (be_refl h n) E)).
    destruct c0 as [z0|]; [|exfalso; tauto]. destruct c1 as [z1|]; [|exfalso; assert (Some z0 = None) by tauto; discriminate].
    assert (Hset : set_count h1 n (len l) = put h1 n (Tree (Some (Z.of_nat (length l))) (Some ks) p1)).
    { unfold set_count. rewrite E1. f_equal. f_equal. f_equal. unfold len. lia. }
    assert (Hb2 : better h1 (set_count h1 n (len l)) (fun m => m = n)).
    { rewrite Hset. intros m. destruct (N.eq_dec m n) as [->|Hne]; [|left; apply put_other; assumption].
      right. exists z1, ks, p1, l. rewrite put_same. auto. }
    exists (set_count h1 n (len l)). split; [|split].
    + intros fuel Hf. destruct fuel as [|fuel]; [lia|]. cbn [update_counts]. rewrite E0. rewrite Hc by lia.
      rewrite N.add_0_l. reflexivity.
    + apply (better_trans _ _ _ _ _ _ Hb1 Hb2).
      * intros m (k & Hk & Hm). eapply be_kid; eauto.
      * intros m ->. constructor.
    + intros m Hm. destruct (N.eq_dec m n) as [->|Hne].
      * intros c2 ks2 par2 l2 E2 Hp2. apply (better_pages _ _ _ Hb2) in Hp2.
        rewrite (proj1 (pages_unique h1) _ _ Hp2 _ Hp1). rewrite Hset, put_same in E2. congruence.
      * apply (better_right _ _ _ _ Hb2). inversion Hm; subst; [congruence|].
        rewrite E in H. injection H as <- <- <-. eapply Hr; eauto.
  - exists O. intros h0 A total Hb Ht Hl. exists h0. split; [|split].
    + intros fuel _. cbn [count_loop]. f_equal. f_equal. unfold len. cbn [length]. lia.
    + apply better_refl.
    + intros k m [].
  - intros k ks l l' H1 [F1 HF1] H2 [F2 HF2]. exists (Nat.max F1 F2). intros h0 A total Hb Ht Hl. rewrite len_app in Hl.
    destruct (HF1 h0 A Hb) as (h1 & Hc1 & Hb1 & Hr1); [apply Ht; left; reflexivity|lia|].
    assert (Hbb : better h h1 (fun m => A m \/ below h k m)).
    { apply (better_trans _ _ _ _ _ _ Hb Hb1); intros; [left|right]; assumption. }
    destruct (HF2 h1 _ (total + len l) Hbb) as (h2 & Hc2 & Hb2 & Hr2).
    { intros k' Hk'. apply Ht. right. assumption. } { lia. }
    exists h2. split; [|split].
    + intros fuel Hf. cbn [count_loop]. rewrite Hc1 by lia. rewrite wadd_small by lia. rewrite Hc2 by lia.
      rewrite len_app. f_equal. f_equal. lia.
    + apply (better_trans _ _ _ _ _ _ Hb1 Hb2).
      * intros m Hm. exists k. split; [left; reflexivity|assumption].
      * intros m (k' & Hk' & Hm). exists k'. split; [right|]; assumption.
    + intros k' m [<-|Hk'] Hm.
      * apply (better_right _ _ _ _ Hb2). auto.
      * eapply Hr2; eauto.
Qed.

(** After UpdateKidsCount all counts are right and nothing else has changed. *)
Lemma counts_updated : forall h n l, pages_of h n l -> counts_there h n -> len l < 9223372036854775808 ->
  exists F h1, (forall fuel, (F <= fuel)%nat -> update_counts fuel h n = (h1, Ok (len l))) /\
    better h h1 (below h n) /\ pages_of h1 n l /\ counts_right h1 n.
Proof.
  intros h n l Hp Ht Hl. destruct (proj1 (counting h) n l Hp) as [F HF].
  destruct (HF h (fun _ => True) (better_refl h _) Ht Hl) as (h1 & Hc & Hb & Hr). exists F, h1.
  split; [assumption|]. split; [assumption|]. split; [apply (better_pages _ _ _ Hb); assumption|].
  intros m c ks par lm Hm E Hpm. apply (better_below _ _ _ Hb) in Hm. eapply Hr; eauto.
Qed.

(** ** editing the kids of the root *)
Lemma below_page : forall h n par m, h n = Some (Page par) -> below h n m -> m = n.
Proof. intros h n par m E H. inversion H; subst; [reflexivity|congruence]. Qed.

Lemma relink : forall h h2 root c ks par l ks' l' c2 par2,
  h root = Some (Tree c (Some ks) par) -> pages_of h root l -> counts_there h root ->
  h2 root = Some (Tree (Some c2) (Some ks') par2) -> (forall m, m <> root -> same_shape (h m) (h2 m)) ->
  (forall k, In k ks' -> In k ks \/ is_page h k) -> pages_of_all h ks' l' ->
  pages_of h2 root l' /\ counts_there h2 root /\ (forall m, below h2 root m -> m = root \/ below h root m \/ In m ks').
Proof.
  intros h h2 root c ks par l ks' l' c2 par2 E Hp Ht E2 Hs Hk Ha.
  assert (Hnr : forall k m, In k ks' -> below h k m -> m <> root).
  { intros k m Hin Hb ->. destruct (Hk k Hin) as [Hin'|[pp Epp]].
    - exact (not_below_itself h root c ks par l k E Hp Hin' Hb).
    - rewrite <- (below_page _ _ _ _ Epp Hb) in Epp. congruence. }
  assert (Hsh : forall k m, In k ks' -> below h k m -> same_shape (h m) (h2 m)).
  { intros k m Hin Hb. apply Hs. eapply Hnr; eauto. }
  assert (Hbk : forall k m, In k ks' -> below h2 k m -> below h k m).
  { intros k m Hin Hb.
    assert (G : forall a m, below h2 a m -> below h k a -> below h k m).
    { clear m Hb. intros a m Ha2. induction Ha2 as [a|a ca ksa pa ka m Ea Hina Hb2 IH]; intros Hka; [assumption|].
      apply IH. destruct (shape_tree _ _ _ _ _ (shape_sym _ _ (Hsh k a Hin Hka)) Ea) as (c' & p' & E' & _).
      apply (below_trans h k a ka Hka). eapply below_kid; eauto. }
    apply (G k m Hb). constructor. }
  split; [|split].
  - econstructor; [exact E2|]. apply (proj2 (pages_shape h h2) ks' l' Ha). exact Hsh.
  - intros n c' ksn parn Hb En. inversion Hb as [|x cx kx px k m Ex Hin Hbx]; subst.
    + rewrite E2 in En. injection En as <- _ _. discriminate.
    + rewrite E2 in Ex. injection Ex as <- <- <-. specialize (Hbk k n Hin Hbx).
      destruct (shape_tree _ _ _ _ _ (shape_sym _ _ (Hsh k n Hin Hbk)) En) as (c0 & p0 & E0 & Hc0).
      assert (Hne : c0 <> None).
      { destruct (Hk k Hin) as [Hin'|[pp Epp]].
        - eapply Ht; [|exact E0]. eapply be_kid; eauto.
        - rewrite (below_page _ _ _ _ Epp Hbk) in E0. congruence. }
      tauto.
  - intros m Hb. inversion Hb as [|x cx kx px k m' Ex Hin Hbx]; subst; [left; reflexivity|]. right.
    rewrite E2 in Ex. injection Ex as <- <- <-. specialize (Hbk k m Hin Hbx).
    destruct (Hk k Hin) as [Hin'|[pp Epp]].
    + left. eapply be_kid; eauto.
    + right. rewrite (below_page _ _ _ _ Epp Hbk). assumption.
Qed.

Lemma set_kids_at : forall h root c ks par ks', h root = Some (Tree c ks par) -> set_kids h root ks' = put h root (Tree c (Some ks') par).
Proof. intros. unfold set_kids. rewrite H. reflexivity. Qed.

Lemma root_after : forall h h1 A root c ks par, better h h1 A -> h root = Some (Tree (Some c) (Some ks) par) ->
  exists c', h1 root = Some (Tree (Some c') (Some ks) par).
Proof.
  intros h h1 A root c ks par H E. destruct (H root) as [E1|(c1 & ks1 & par1 & l1 & _ & E1 & _ & E2)].
  - rewrite E1. eauto.
  - rewrite E1 in E. injection E as <- <- <-. eauto.
Qed.

Record edited (h h' : pheap) (root : N) (ks' l' : list N) : Prop := {
  ed_pages : pages_of h' root l';
  ed_counts : counts_right h' root;
  ed_root : exists c par par0 c0 ks0, h root = Some (Tree c0 (Some ks0) par0) /\ h' root = Some (Tree (Some c) (Some ks') par) /\ par = par0;
  ed_shape : forall m, m <> root -> same_shape (h m) (h' m)
}.

Lemma insert_ok : forall h root c ks1 ks2 par l1 l2 p,
  h root = Some (Tree (Some c) (Some (ks1 ++ ks2)) par) -> pages_of_all h ks1 l1 -> pages_of_all h ks2 l2 -> counts_there h root ->
  is_page h p -> len (l1 ++ l2) + 1 < 9223372036854775808 -> len (ks1 ++ ks2) + 1 < 9223372036854775808 ->
  exists F h', (forall fuel, (F <= fuel)%nat -> insert_page fuel h root p (len ks1 + 1) = (h', Ok tt)) /\
    edited h h' root (ks1 ++ p :: ks2) (l1 ++ p :: l2) /\ h' p = Some (Page (Some root)) /\
    (forall m, m <> p -> ~ below h root m -> h' m = h m) /\
    (forall m, m <> p -> m <> root -> h' m = h m \/ exists c ks par c', h m = Some (Tree (Some c) ks par) /\ h' m = Some (Tree (Some c') ks par)).
Proof.
  intros h root c ks1 ks2 par l1 l2 p E H1 H2 Ht [pp Ep] Hl Hk.
  assert (Hne : p <> root) by (intros ->; congruence).
  set (h2 := set_parent (set_kids h root (ks1 ++ p :: ks2)) p root).
  assert (E2 : h2 root = Some (Tree (Some c) (Some (ks1 ++ p :: ks2)) par)).
  { unfold h2. rewrite (set_kids_at _ _ _ _ _ _ E). unfold set_parent. rewrite put_other by assumption. rewrite Ep.
    rewrite put_other by auto. apply put_same. }
  assert (E2p : h2 p = Some (Page (Some root))).
  { unfold h2. rewrite (set_kids_at _ _ _ _ _ _ E). unfold set_parent. rewrite put_other by assumption. rewrite Ep. apply put_same. }
  assert (E2o : forall m, m <> root -> m <> p -> h2 m = h m).
  { intros m Hm Hmp. unfold h2. rewrite (set_kids_at _ _ _ _ _ _ E). unfold set_parent. rewrite put_other by assumption. rewrite Ep.
    rewrite put_other by assumption. apply put_other. assumption. }
  assert (Hsh : forall m, m <> root -> same_shape (h m) (h2 m)).
  { intros m Hm. destruct (N.eq_dec m p) as [->|Hmp]; [rewrite Ep, E2p; exact I|]. rewrite E2o by assumption. apply shape_refl. }
  assert (Hpr : pages_of h root (l1 ++ l2)) by (econstructor; [exact E|apply pages_all_app; assumption]).
  assert (Ha : pages_of_all h (ks1 ++ p :: ks2) (l1 ++ p :: l2)).
  { apply pages_all_app; [assumption|]. change (p :: l2) with ([p] ++ l2). constructor; [econstructor; eassumption|assumption]. }
  destruct (relink h h2 root _ _ _ _ _ (l1 ++ p :: l2) _ _ E Hpr Ht E2 Hsh) as (Hp2 & Ht2 & Hb2); [| exact Ha |].
  { intros k Hin. apply in_app_or in Hin. destruct Hin as [Hin|[<-|Hin]]; [left|right; exists pp; assumption|left]; apply in_or_app; auto. }
  assert (Hlen : len (l1 ++ p :: l2) = len (l1 ++ l2) + 1). { rewrite !len_app. unfold len. cbn [length]. lia. }
  destruct (counts_updated h2 root _ Hp2 Ht2) as (F & h' & Hf & Hbt & Hp' & Hc'); [rewrite Hlen; lia|].
  exists F, h'. split; [|split; [|split; [|split]]].
  - intros fuel Hfu. unfold insert_page, kids_internal. rewrite E. rewrite wsub_small by (rewrite len_app in Hk; lia).
    replace (len ks1 + 1 - 1) with (len ks1) by lia. unfold arr_insert, arr_size.
    rewrite (proj2 (N.ltb_ge _ _)) by (rewrite app_length; unfold len; lia).
    unfold len. rewrite Nat2N.id. rewrite firstn_app, skipn_app, firstn_all, skipn_all, PeanoNat.Nat.sub_diag. cbn [firstn skipn app]. rewrite app_nil_r.
    fold h2. rewrite Hf by assumption. reflexivity.
  - split; [assumption|assumption| |].
    + destruct (root_after _ _ _ _ _ _ _ Hbt E2) as [c' E']. exists c', par, par, (Some c), (ks1 ++ ks2). auto.
    + intros m Hm. apply (shape_trans _ (h2 m)); [apply Hsh; assumption|eapply better_shape; eauto].
  - destruct (Hbt p) as [->|(? & ? & ? & ? & _ & Eb & _)]; [assumption|congruence].
  - intros m Hm Hnb. assert (m <> root) by (intros ->; apply Hnb; constructor).
    destruct (Hbt m) as [->|(? & ? & ? & ? & Hbm & _)]; [apply E2o; assumption|]. exfalso.
    destruct (Hb2 m Hbm) as [?|[?|Hin]]; [contradiction|contradiction|].
    apply in_app_or in Hin. destruct Hin as [Hin|[->|Hin]]; [|congruence|]; apply Hnb; eapply below_kid; [exact E|apply in_or_app; auto|exact E|apply in_or_app; auto].
  - intros m Hm Hr. destruct (Hbt m) as [->|(c1 & k1 & p1 & l1' & _ & Eb & _ & Eb')]; [left; apply E2o; assumption|]. right.
    rewrite E2o in Eb by assumption. rewrite Eb, Eb'. do 4 eexists. split; reflexivity.
Qed.

Lemma kids_ok : forall h root c ks ks' par l l',
  h root = Some (Tree (Some c) (Some ks) par) -> pages_of h root l -> counts_there h root ->
  incl ks' ks -> pages_of_all h ks' l' -> len l' < 9223372036854775808 ->
  exists F h', (forall fuel, (F <= fuel)%nat -> finish_update (update_counts fuel (set_kids h root ks') root) = (h', Ok tt)) /\
    edited h h' root ks' l' /\ (forall m, ~ below h root m -> h' m = h m).
Proof.
  intros h root c ks ks' par l l' E Hp Ht Hi Ha Hl.
  set (h2 := set_kids h root ks').
  assert (E2 : h2 root = Some (Tree (Some c) (Some ks') par)).
  { unfold h2. rewrite (set_kids_at _ _ _ _ _ _ E). apply put_same. }
  assert (E2o : forall m, m <> root -> h2 m = h m).
  { intros m Hm. unfold h2. rewrite (set_kids_at _ _ _ _ _ _ E). apply put_other. assumption. }
  assert (Hsh : forall m, m <> root -> same_shape (h m) (h2 m)).
  { intros m Hm. rewrite E2o by assumption. apply shape_refl. }
  destruct (relink h h2 root _ _ _ _ _ l' _ _ E Hp Ht E2 Hsh) as (Hp2 & Ht2 & Hb2); [intros k Hin; left; apply Hi, Hin| exact Ha |].
  destruct (counts_updated h2 root _ Hp2 Ht2) as (F & h' & Hf & Hbt & Hp' & Hc'); [lia|].
  exists F, h'. split; [|split].
  - intros fuel Hfu. rewrite Hf by assumption. reflexivity.
  - split; [assumption|assumption| |].
    + destruct (root_after _ _ _ _ _ _ _ Hbt E2) as [c' E']. exists c', par, par, (Some c), ks. auto.
    + intros m Hm. apply (shape_trans _ (h2 m)); [apply Hsh; assumption|eapply better_shape; eauto].
  - intros m Hnb. assert (m <> root) by (intros ->; apply Hnb; constructor).
    destruct (Hbt m) as [->|(? & ? & ? & ? & Hbm & _)]; [apply E2o; assumption|]. exfalso.
    destruct (Hb2 m Hbm) as [?|[?|Hin]]; [contradiction|contradiction|].
    apply Hnb. eapply below_kid; [exact E|]. apply Hi, Hin.
Qed.

Lemma wsub_zero : wsub 0 1 = 18446744073709551615.
Proof. reflexivity. Qed.

Lemma insert_outside : forall fuel h root c ks par p i, h root = Some (Tree c (Some ks) par) -> len ks + 1 < 9223372036854775808 ->
  i < 18446744073709551616 -> ~ (1 <= i <= len ks + 1) -> insert_page fuel h root p i = (h, Throw EGeneral).
Proof.
  intros fuel h root c ks par p i E Hk Hi Hr. unfold insert_page, kids_internal. rewrite E. unfold arr_insert, arr_size. fold (len ks).
  replace (len ks <? wsub i 1) with true; [reflexivity|]. symmetry. apply N.ltb_lt.
  destruct (N.eq_dec i 0) as [->|Hne]; [rewrite wsub_zero; lia|]. rewrite wsub_small by lia. lia.
Qed.

Lemma append_insert : forall fuel h root c ks par p, h root = Some (Tree c (Some ks) par) -> len ks + 1 < 9223372036854775808 ->
  append_page fuel h root p = insert_page fuel h root p (len ks + 1).
Proof.
  intros fuel h root c ks par p E Hk. unfold append_page, kids_internal. rewrite E. unfold arr_size. fold (len ks).
  rewrite wadd_small by lia. reflexivity.
Qed.

Lemma arr_remove_in : forall ks i, 1 <= i <= len ks -> len ks < 9223372036854775808 ->
  fst (arr_remove ks (wsub i 1)) = remove_at ks (N.to_nat i).
Proof.
  intros ks i Hi Hk. rewrite wsub_small by lia. unfold arr_remove, arr_size. fold (len ks).
  rewrite (proj2 (N.leb_gt _ _)) by lia. cbn [fst]. unfold remove_at.
  replace (N.to_nat (i - 1)) with (N.to_nat i - 1)%nat by lia. replace (S (N.to_nat i - 1)) with (N.to_nat i) by lia. reflexivity.
Qed.
Lemma arr_remove_out : forall ks i, ~ (1 <= i <= len ks) -> len ks < 9223372036854775808 -> i < 18446744073709551616 ->
  fst (arr_remove ks (wsub i 1)) = ks.
Proof.
  intros ks i Hi Hk Hb. unfold arr_remove, arr_size. fold (len ks).
  replace (len ks <=? wsub i 1) with true; [reflexivity|]. symmetry. apply N.leb_le.
  destruct (N.eq_dec i 0) as [->|Hne]; [rewrite wsub_zero; lia|]. rewrite wsub_small by lia. lia.
Qed.

(** ** trees without inner nodes *)
Lemma flat_pages : forall h root l, flat h root l -> pages_of h root l.
Proof. intros h root l (c & par & E & Hf). econstructor; [exact E|]. apply pages_all_flat. assumption. Qed.
Lemma flat_there : forall h root l, flat h root l -> counts_there h root.
Proof.
  intros h root l (c & par & E & Hf) n cn ksn parn Hb En. inversion Hb as [|x cx kx px k m Ex Hin Hbx]; subst.
  - rewrite E in En. injection En as <- _ _. discriminate.
  - rewrite E in Ex. injection Ex as <- <- <-. rewrite Forall_forall in Hf. destruct (Hf k Hin) as [pp Epp].
    rewrite (below_page _ _ _ _ Epp Hbx) in En. congruence.
Qed.
Lemma page_shape : forall h h' root m, (forall m, m <> root -> same_shape (h m) (h' m)) -> is_pages h root -> is_page h m -> is_page h' m.
Proof.
  intros h h' root m Hs (c & ks & p & E) [pp Epp]. assert (m <> root) by (intros ->; congruence).
  destruct (shape_page _ _ _ (Hs m H) Epp) as [p' E']. exists p'. assumption.
Qed.
Lemma flat_edited : forall h h' root l l', flat h root l -> edited h h' root l' l' -> Forall (is_page h) l' -> flat h' root l'.
Proof.
  intros h h' root l l' Hf [Hp Hc (c & par & par0 & c0 & ks0 & E0 & E & _) Hs] Ha. exists c, par. split; [assumption|].
  destruct Hf as (cc & pc & Ef & _). apply Forall_forall. intros m Hm. apply (page_shape h h' root); [assumption|exists (Some cc), l, pc; assumption|].
  rewrite Forall_forall in Ha. auto.
Qed.

(** ** checking a concrete tree *)
Fixpoint check_tree (fuel : nat) (h : pheap) (n : N) : option (list N) :=
  match fuel with
  | O => None
  | S f => match h n with
           | Some (Page _) => Some [n]
           | Some (Tree (Some c) (Some ks) _) =>
               match (fix go (ks : list N) : option (list N) :=
                 match ks with
                 | [] => Some []
                 | k :: rest => match check_tree f h k, go rest with Some a, Some b => Some (a ++ b) | _, _ => None end
                 end) ks with
               | Some l => if (c =? Z.of_nat (length l))%Z then Some l else None
               | None => None
               end
           | _ => None
           end
  end.
Lemma check_ok : forall fuel h n l, check_tree fuel h n = Some l -> pages_of h n l /\ counts_right h n.
Proof.
  induction fuel as [|f IH]; intros h n l H; [discriminate|]. cbn [check_tree] in H.
  destruct (h n) as [[p|[c|] [ks|] p|]|] eqn:E; try discriminate.
  - injection H as <-. split; [econstructor; eassumption|]. intros m c' ks' par' l' Hb Em _.
    rewrite (below_page _ _ _ _ E Hb) in Em. congruence.
  - remember (fix go (ks : list N) : option (list N) :=
                 match ks with
                 | [] => Some []
                 | k :: rest => match check_tree f h k, go rest with Some a, Some b => Some (a ++ b) | _, _ => None end
                 end) as go eqn:Hgo.
    destruct (go ks) as [l0|] eqn:Eg; [|discriminate]. destruct (c =? Z.of_nat (length l0))%Z eqn:Ec; [|discriminate].
    injection H as ->. apply Z.eqb_eq in Ec. subst c.
    assert (G : forall ks l, go ks = Some l -> pages_of_all h ks l /\ forall k, In k ks -> counts_right h k).
    { clear - IH Hgo. induction ks as [|k ks IHk]; intros l H; rewrite Hgo in H; cbn in H.
      - injection H as <-. split; [constructor|intros k []].
      - destruct (check_tree f h k) as [a|] eqn:Ea; [|discriminate]. rewrite <- Hgo in H. destruct (go ks) as [b|] eqn:Eb; [|discriminate].
        injection H as <-. destruct (IH _ _ _ Ea) as [Hp Hc]. destruct (IHk _ eq_refl) as [Hp' Hc'].
        split; [constructor; assumption|]. intros k' [<-|Hin]; auto. }
    destruct (G ks l Eg) as [Ha Hk]. assert (Hp : pages_of h n l) by (econstructor; eassumption). split; [assumption|].
    intros m cm ksm parm lm Hb Em Hm. inversion Hb as [|x cx kx px k m' Ex Hin Hbx]; subst.
    + rewrite E in Em. injection Em as <- <- <-. rewrite (proj1 (pages_unique h) _ _ Hm _ Hp). reflexivity.
    + rewrite E in Ex. injection Ex as <- <- <-. eapply Hk; eauto.
Qed.

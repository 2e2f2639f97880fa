(** The contents of a page. *)
From Coq Require Import List NArith ZArith Bool String Lia ZifyBool ZifyNat ZifyN.
From Coq Require Import List.
From Verif.Model Require Import Base Object Content PageContents.
From Verif.Spec Require Import Strings Grammar Content PageContents.
From Verif.Proof Require Import Tac Strings ParserAny Content ContentWrite ContentEnds.
Import ListNotations.
Local Open Scope N_scope.

Lemma regular_not_white : forall c, pdf_regular c -> ~ In c pdf_white.
Proof. intros c [H _] Hi. contradiction. Qed.
Lemma operation_last : forall txt o, operation_text txt o -> exists p c, txt = p ++ [c] /\ pdf_regular c.
Proof.
  intros txt o H. induction H.
  - destruct H0 as (Hne & Hr & _). destruct (exists_last Hne) as (p & c & ->). exists (g ++ p), c. rewrite <- app_assoc. split; [reflexivity|].
    apply Forall_app in Hr. destruct Hr as [_ Hr]. inversion Hr. assumption.
  - destruct IHoperation_text as (p & c & -> & Hc). exists (g ++ txt ++ p), c. rewrite <- !app_assoc. split; [reflexivity|exact Hc].
Qed.
Lemma operations_last : forall txt l, operations_text txt l -> exists p c, txt = p ++ [c] /\ pdf_regular c.
Proof.
  intros txt l H. induction H; [eapply operation_last; eauto|]. destruct IHoperations_text as (p & c & -> & Hc). exists (txt ++ p), c.
  rewrite <- app_assoc. split; [reflexivity|exact Hc].
Qed.
Lemma last_same : forall (p q : list N) c e, p ++ [c] = q ++ [e] -> c = e.
Proof. intros p q c e H. apply app_inj_tail in H. tauto. Qed.
Lemma boundary_tail : forall a x b, x <> [] -> boundary (a ++ x) b -> boundary x b.
Proof.
  intros a x b Hx [(p & c & E & Hc)|H]; [|right; exact H]. left. destruct (exists_last Hx) as (q & e & ->). rewrite app_assoc in E.
  exists q, e. split; [reflexivity|]. apply last_same in E. congruence.
Qed.
Lemma content_nil : forall h l, content_text h [] l -> l = [].
Proof.
  intros h l H. remember [] as txt eqn:E. destruct H as [g Hg|txt o more l2 Ho|b txt ops more l2 Ho|b txt es m before data after final more l2 Ho]; [reflexivity|..]; exfalso.
  all: destruct (operation_last _ _ Ho) as (q & e & Eq & _); subst; destruct q; discriminate.
Qed.
Lemma boundary_rest : forall a x b q e, a = q ++ [e] -> pdf_regular e -> boundary (a ++ x) b -> boundary x b /\ (token_ends x -> token_ends (x ++ b)).
Proof.
  intros a x b q e Ea He H. destruct x as [|c x].
  - rewrite app_nil_r in H. destruct H as [(p & c & E & Hw)|H].
    + exfalso. rewrite Ea in E. apply last_same in E. subst. eapply regular_not_white; eauto.
    + split; [right; exact H|intros _; exact H].
  - split; [eapply boundary_tail; [discriminate|exact H]|]. intros Hx. exact Hx.
Qed.
Lemma content_app : forall h a la b lb, content_text h a la -> boundary a b -> content_text h b lb -> content_text h (a ++ b) (la ++ lb).
Proof.
  intros h a la b lb H Hb Hc. induction H; cbn [app].
  - apply content_gap; assumption.
  - rewrite <- app_assoc. destruct (operation_last _ _ H) as (q & e & Eq & He). destruct (boundary_rest _ _ _ _ _ Eq He Hb) as [B1 B2].
    apply ct_op; auto.
  - destruct (operations_last _ _ H1) as (q & e & Eq & He). rewrite app_assoc in Hb. assert (Eq2 : b0 ++ txt = (b0 ++ q) ++ [e]) by (rewrite Eq, app_assoc; reflexivity).
    destruct (boundary_rest _ _ _ _ _ Eq2 He Hb) as [B1 B2]. rewrite <- !app_assoc. apply ct_text; auto.
  - match goal with |- content_text _ ?x _ => replace x with (b0 ++ txt ++ [before] ++ data ++ [after] ++ str "EI" ++ [final] ++ (more ++ b)) end.
    2: repeat first [rewrite <- app_assoc | rewrite <- app_comm_cons]; reflexivity.
    apply (ct_image h b0 txt es m before data after final (more ++ b) (l ++ lb)); auto.
    destruct more as [|c more]; [apply content_nil in H8; subst l; exact Hc|].
    apply IHcontent_text. eapply boundary_tail; [discriminate|].
    instantiate (1 := b0 ++ txt ++ [before] ++ data ++ [after] ++ str "EI" ++ [final]). rewrite <- !app_assoc. exact Hb.
Qed.
Lemma contents_app : forall h txts ls, Forall2 (content_text h) txts ls -> boundaries txts -> content_text h (concat txts) (concat ls).
Proof.
  intros h txts ls H. induction H; intros Hb; cbn [concat]; [constructor; constructor|]. destruct Hb as [B1 B2]. apply content_app; auto.
Qed.

(** ** edits *)
Lemma change_spec : forall ch l l2, change_list ch l = Ok l2 <-> edited ch l l2.
Proof.
  intros ch l l2. split.
  - intros H. destruct ch as [i|n i|n|]; cbn [change_list] in H.
    + inversion H. constructor.
    + cif_in H; [discriminate|]. inversion H; subst. rewrite <- (firstn_skipn (N.to_nat n) l) at 1. constructor. rewrite firstn_length. lia.
    + cif_in H; [discriminate|]. assert (E0 : l2 = firstn (N.to_nat n) l ++ skipn (S (N.to_nat n)) l) by congruence. clear H. rewrite E0. clear E0.
      assert (E : skipn (N.to_nat n) l <> []) by (intros E; apply (f_equal (@List.length instr)) in E; rewrite skipn_length in E; cbn in E; lia).
      destruct (skipn (N.to_nat n) l) as [|i t] eqn:Es; [congruence|].
      assert (E2 : skipn (S (N.to_nat n)) l = t).
      { clear - Es. revert l Es. induction (N.to_nat n) as [|k IH]; intros l Es; destruct l as [|x l]; try discriminate; cbn [skipn] in *; [congruence|].
        rewrite (IH _ Es). reflexivity. }
      rewrite E2. assert (E3 := firstn_skipn (N.to_nat n) l). rewrite Es in E3. rewrite <- E3 at 1. constructor. rewrite firstn_length. lia.
    + inversion H. constructor.
  - intros H. destruct H; cbn [change_list]; try reflexivity.
    + rewrite app_length. replace (N.of_nat (List.length a + List.length b) <? n) with false by lia.
      replace (N.to_nat n) with (List.length a) by lia. rewrite firstn_app, skipn_app, firstn_all, skipn_all, PeanoNat.Nat.sub_diag. cbn [firstn skipn app]. rewrite app_nil_r. reflexivity.
    + rewrite app_length. cbn [List.length]. replace (N.of_nat (List.length a + S (List.length b)) <=? n) with false by lia.
      replace (N.to_nat n) with (List.length a) by lia. rewrite firstn_app, firstn_all, PeanoNat.Nat.sub_diag. cbn [firstn]. rewrite app_nil_r.
      replace (S (List.length a)) with (List.length (a ++ [i])) by (rewrite app_length; cbn; lia).
      replace (a ++ i :: b) with ((a ++ [i]) ++ b) by (rewrite <- app_assoc; reflexivity). rewrite skipn_app, skipn_all, PeanoNat.Nat.sub_diag. reflexivity.
Qed.

(** ** histories *)
Lemma do_calls_app : forall a b c, do_calls (a ++ b) c = (do c1 <- do_calls a c;; do_calls b c1).
Proof.
  induction a as [|k a IH]; intros b c; [reflexivity|]. cbn [app do_calls]. destruct (do_call k c); cbn [rbind]; [apply IH|reflexivity..].
Qed.
Lemma changes_done : forall chs c l2, loaded c = true -> edited_all chs (held c) l2 ->
  do_calls (map CChange chs) c = Ok (mkContents (in_array c) (bodies c) (dirty c) true l2).
Proof.
  induction chs as [|ch chs IH]; intros c l2 Hl H; inversion H as [|? ? ? l1 ? Hed Hrest]; subst; cbn [map do_calls].
  - destruct c; cbn in *. subst. reflexivity.
  - cbn [do_call]. unfold instructions. rewrite Hl. cbn [rbind]. rewrite (proj2 (change_spec _ _ _) Hed). cbn [rbind]. rewrite (IH _ l2); [reflexivity|reflexivity|]. exact Hrest.
Qed.
Lemma clean_stays : forall ks c c2, dirty c = false -> ~ In CTouch ks -> do_calls ks c = Ok c2 -> dirty c2 = false /\ bodies c2 = bodies c /\ in_array c2 = in_array c.
Proof.
  induction ks as [|k ks IH]; intros c c2 Hd Hn H; cbn [do_calls] in H; [inversion H; subst; auto|].
  apply rbind_ok in H. destruct H as (c1 & E & H). assert (S : dirty c1 = false /\ bodies c1 = bodies c /\ in_array c1 = in_array c).
  { destruct k as [|ch| |]; cbn [do_call] in E.
    - unfold instructions in E. destruct (loaded c); [inversion E; subst; auto|]. apply rbind_ok in E. destruct E as ([l c3] & E & E2). inversion E2; subst.
      apply rbind_ok in E. destruct E as (l3 & _ & E). inversion E; subst. auto.
    - apply rbind_ok in E. destruct E as ([l c3] & E & E2). apply rbind_ok in E2. destruct E2 as (l4 & _ & E2). inversion E2; subst. cbn [dirty bodies in_array].
      unfold instructions in E. destruct (loaded c); [inversion E; subst; auto|]. apply rbind_ok in E. destruct E as (l3 & _ & E). inversion E; subst. auto.
    - exfalso. apply Hn. left. reflexivity.
    - unfold recalculate in E. rewrite Hd in E. cbn in E. inversion E; subst. auto. }
  destruct S as (S1 & S2 & S3). destruct (IH c1 c2 S1 ltac:(intros Hi; apply Hn; right; exact Hi) H) as (I1 & I2 & I3). split; [exact I1|]. split; congruence.
Qed.
Lemma recalculated : forall c, dirty c = true -> (in_array c = true -> bodies c <> []) -> (in_array c = false -> exists b, bodies c = [b]) ->
  Forall (fun i => writable_instruction (seen i)) (held c) ->
  exists c2, recalculate c = Ok (true, c2) /\ page_shows c2 (map grown (map seen (held c))) /\ held c2 = held c /\ loaded c2 = loaded c /\ in_array c2 = in_array c /\
    List.length (bodies c2) = List.length (bodies c).
Proof.
  intros c Hd Ha Hs Hw. assert (C := content_written _ Hw).
  destruct (content_reads _ _ C (List.length (write_content (held c)) + 2) ltac:(lia)) as (is & E & Es & _).
  unfold recalculate. rewrite Hd. cbn [negb]. destruct (in_array c) eqn:Ea.
  - destruct (bodies c) as [|b t] eqn:Eb; [exfalso; apply Ha; reflexivity|]. eexists. split; [reflexivity|]. split; [|cbn [held loaded in_array bodies List.length]; rewrite map_length; auto].
    unfold page_shows, instructions, reopened. cbn [loaded bodies]. assert (En : concat (write_content (held c) :: map (fun _ => []) t) = write_content (held c)).
    { cbn [concat]. replace (concat (map (fun _ => []) t)) with (@nil N); [apply app_nil_r|]. clear. induction t; [reflexivity|exact IHt]. }
    rewrite En. unfold parse_content. rewrite E. cbn [rbind]. do 2 eexists. split; [reflexivity|exact Es].
  - eexists. split; [reflexivity|]. split; [|cbn [held loaded in_array bodies List.length]; destruct (Hs eq_refl) as [b ->]; auto].
    unfold page_shows, instructions, reopened. cbn [loaded bodies concat]. rewrite app_nil_r. unfold parse_content. rewrite E. cbn [rbind]. do 2 eexists. split; [reflexivity|exact Es].
Qed.

(** Operators: lemmas. *)
From Coq Require Import List NArith ZArith Bool String Lia.
From Coq Require Import List.
From Verif.Model Require Import Base Char Numbers SMap Object Token Parser Content Operators.
From Verif.Spec Require Import Strings Grammar Content Operators.
From Verif.Proof Require Import Tac.
From Verif.Proof Require Token Content ContentWrite.
Import ListNotations.
Local Open Scope N_scope.

Lemma of_word_some : forall A (w : bytes) (l : list (bytes * A)) v, of_word w l = Some v -> In (w, v) l.
Proof.
  intros A w. induction l as [|[k x] l IH]; intros v H; [discriminate H|]. cbn [of_word] in H.
  destruct (bytes_eqb k w) eqn:E; [|right; exact (IH v H)]. apply Verif.Proof.Content.str_eqb in E. left. congruence.
Qed.
Lemma of_word_none : forall A (w : bytes) (l : list (bytes * A)), of_word w l = None -> ~ In w (map fst l).
Proof.
  intros A w. induction l as [|[k x] l IH]; intros H; [intros []|]. cbn [of_word] in H. cbn [map fst].
  destruct (bytes_eqb k w) eqn:E; [discriminate H|]. intros [<-|Hi]; [|exact (IH H Hi)].
  rewrite (proj2 (Verif.Proof.Content.str_eqb k k) eq_refl) in E. discriminate E.
Qed.
(** the words of the three tables *)
Lemma words_content : map fst token_types = content_words.
Proof. vm_compute. reflexivity. Qed.
Definition same_words (a b : list bytes) : bool := forallb (fun w => existsb (bytes_eqb w) b) a.
Lemma same_words_in : forall a b, same_words a b = true -> forall w, In w a -> In w b.
Proof.
  intros a b H w Hw. unfold same_words in H. rewrite forallb_forall in H. apply H in Hw. apply existsb_exists in Hw.
  destruct Hw as (x & Hx & E). apply Verif.Proof.Content.str_eqb in E. congruence.
Qed.
Lemma words_standard : forall w, In w (map fst token_types) <-> In w (map fst standard_operators).
Proof. intros w. split; apply same_words_in; vm_compute; reflexivity. Qed.

(** the words in the dictionary: what a program learns about their operators *)
Definition row_ok (wt : bytes * string) : bool :=
  let '(w, t) := wt in
  existsb (bytes_eqb w) own_class ||
  match of_name t generic_operators with
  | Some n =>
      match value (Known n), operator_type (Known n) with
      | Some v, Some k => bytes_eqb v w && match of_word w standard_operators with Some k' => String.eqb k k' | None => false end
      | _, _ => false
      end
  | None => false
  end.
Lemma rows_ok : forallb row_ok token_types = true.
Proof. vm_compute. reflexivity. Qed.
(** no word has two kinds *)
Lemma standard_single : forall w k k', In (w, k) standard_operators -> In (w, k') standard_operators -> k = k'.
Proof.
  assert (G : forallb (fun a => match of_word (fst a) standard_operators with Some k => String.eqb k (snd a) | None => false end) standard_operators = true)
    by (vm_compute; reflexivity).
  rewrite forallb_forall in G. intros w k k' H1 H2. apply G in H1, H2. cbn [fst snd] in H1, H2.
  destruct (of_word w standard_operators) as [x|]; [|discriminate H1]. apply String.eqb_eq in H1, H2. congruence.
Qed.
Lemma kind_single : forall w k k', kind_of w k -> kind_of w k' -> k = k'.
Proof.
  intros w k k' [H|[H ->]] [H'|[H' ->]]; [eapply standard_single; eassumption| | |reflexivity]; exfalso.
  - apply H'. apply in_map_iff. exists (w, k). auto.
  - apply H. apply in_map_iff. exists (w, k'). auto.
Qed.

(** the token type of a word that is not one of the eight is not one of the eight *)
Definition special_types : list string := ["BEGIN_TEXT"; "END_TEXT"; "TEXT_FONT"; "TEXT_SHOW"; "TEXT_SHOW_ARRAY"; "BEGIN_INLINE_IMAGE_OBJECT";
  "BEGIN_INLINE_IMAGE_DATA"; "END_INLINE_IMAGE_OBJECT"]%string.
Lemma special_rows : forall w t, In (w, t) token_types -> ~ In w own_class -> existsb (String.eqb t) special_types = false.
Proof.
  assert (G : forallb (fun a => existsb (bytes_eqb (fst a)) own_class || negb (existsb (String.eqb (snd a)) special_types)) token_types = true)
    by (vm_compute; reflexivity).
  rewrite forallb_forall in G. intros w t H Hn. apply G in H. cbn [fst snd] in H. apply orb_true_iff in H. destruct H as [H|H].
  - exfalso. apply Hn. apply existsb_exists in H. destruct H as (x & Hx & E). apply Verif.Proof.Content.str_eqb in E. congruence.
  - destruct (existsb (String.eqb t) special_types); [discriminate H|reflexivity].
Qed.
Lemma make_generic : forall l w, ~ In w own_class -> exists p, make_operation l (content_dictionary w, w) = Ok (Generic l p) /\
  value p = Some w /\ exists k, operator_type p = Some k /\ kind_of w k.
Proof.
  intros l w Hn. unfold make_operation. cbn [fst snd].
  assert (Unk : ~ In w (map fst token_types) -> value (Unknown w) = Some w /\ exists k, operator_type (Unknown w) = Some k /\ kind_of w k).
  { intros H. split; [reflexivity|]. exists "Unknown"%string. split; [reflexivity|]. right. split; [|reflexivity]. rewrite <- words_standard. exact H. }
  unfold content_dictionary. destruct (existsb (bytes_eqb w) content_words) eqn:Ew.
  - apply existsb_exists in Ew. destruct Ew as (x & Hx & E). apply Verif.Proof.Content.str_eqb in E. subst x.
    destruct (of_word w token_types) as [t|] eqn:Et.
    2:{ apply of_word_none in Et. rewrite words_content in Et. contradiction. }
    apply of_word_some in Et. assert (Es := special_rows w t Et Hn). unfold special_types in Es. cbn [existsb] in Es.
    repeat (apply orb_false_iff in Es; let E := fresh "S" in destruct Es as [E Es]). rewrite S, S0, S1, S2, S3, S4, S5, S6.
    assert (R := rows_ok). rewrite forallb_forall in R. apply R in Et. unfold row_ok in Et. apply orb_true_iff in Et. destruct Et as [Et|Et].
    + exfalso. apply Hn. apply existsb_exists in Et. destruct Et as (x & Hx' & E). apply Verif.Proof.Content.str_eqb in E. rewrite E; exact Hx'.
    + destruct (of_name t generic_operators) as [n|]; [|discriminate Et]. exists (Known n). split; [reflexivity|].
      destruct (value (Known n)) as [v|]; [|discriminate Et]. destruct (operator_type (Known n)) as [k|]; [|discriminate Et].
      apply andb_true_iff in Et. destruct Et as [E1 E2]. apply Verif.Proof.Content.str_eqb in E1. subst v. split; [reflexivity|]. exists k. split; [reflexivity|].
      left. destruct (of_word w standard_operators) as [k'|] eqn:Ek; [|discriminate E2]. apply String.eqb_eq in E2. subst k'. apply of_word_some. exact Ek.
  - assert (Hw : ~ In w (map fst token_types)).
    { rewrite words_content. intros Hw. assert (X : existsb (bytes_eqb w) content_words = true); [|congruence].
      apply existsb_exists. exists w. split; [exact Hw|apply Verif.Proof.Content.str_eqb; reflexivity]. }
    exists (Unknown w). split; [|exact (Unk Hw)].
    assert (Hk : forall k, parser_dictionary w <> TyKw k).
    { intros k. unfold parser_dictionary. repeat (destruct (bytes_eqb w _); [discriminate|]). discriminate. }
    destruct (parser_dictionary w) as [| | | | | | | | | | | | | | | | | | | | | | |k]; try reflexivity. exfalso. exact (Hk k eq_refl).
Qed.

(** ** the words with classes of their own *)
Definition same_shape (l : list obj) (w : bytes) (o : api_operation) : Prop :=
  own_operands o = Some l /\ operator_of o = None /\ operation_pdf o = Some (ContentWrite.shape l w) /\
  exists k, operation_type o = Some k /\ kind_of w k.
Ltac standard := left; apply of_word_some; vm_compute; reflexivity.
Ltac words H := unfold well_formed in H; let H1 := fresh "W" in let H2 := fresh "W" in let H3 := fresh "W" in let H4 := fresh "W" in destruct H as (H1 & H2 & H3 & H4).
Lemma make_own : forall l w, In w own_class ->
  (well_formed (l, w) -> exists o, make_operation l (content_dictionary w, w) = Ok o /\ same_shape l w o) /\
  (~ well_formed (l, w) -> make_operation l (content_dictionary w, w) = Throw EGeneral).
Proof.
  intros l w Hw. unfold own_class in Hw. cbn [map In] in Hw.
  assert (Empty : forall v o, In v [str "BT"; str "ET"; str "BI"; str "ID"; str "EI"] -> make_operation l (content_dictionary v, v) = none l o ->
    same_shape [] v o ->
    (well_formed (l, v) -> exists o, make_operation l (content_dictionary v, v) = Ok o /\ same_shape l v o) /\
    (~ well_formed (l, v) -> make_operation l (content_dictionary v, v) = Throw EGeneral)).
  { intros v o Hv E Hs. split.
    - intros H. words H. specialize (W Hv). subst l. exists o. rewrite E. split; [reflexivity|exact Hs].
    - intros H. rewrite E. destruct l as [|x l]; [|reflexivity]. exfalso. apply H. apply Content.empty_word. exact Hv. }
  destruct Hw as [<-|[<-|[<-|[<-|[<-|[<-|[<-|[<-|[]]]]]]]]].
  - apply (Empty _ BeginText); [cbn [In]; tauto|vm_compute; reflexivity|]. repeat split. eexists. split; [reflexivity|standard].
  - apply (Empty _ EndText); [cbn [In]; tauto|vm_compute; reflexivity|]. repeat split. eexists. split; [reflexivity|standard].
  - apply (Empty _ BeginImage); [cbn [In]; tauto|vm_compute; reflexivity|]. repeat split. eexists. split; [reflexivity|standard].
  - apply (Empty _ ImageData); [cbn [In]; tauto|vm_compute; reflexivity|]. repeat split. eexists. split; [reflexivity|standard].
  - apply (Empty _ EndImage); [cbn [In]; tauto|vm_compute; reflexivity|]. repeat split. eexists. split; [reflexivity|standard].
  - change (make_operation l (content_dictionary (str "Tf"), str "Tf")) with (text_font l). split.
    + intros H. words H. destruct (W0 eq_refl) as (n & z & -> & Hz). exists (TextFont (OName n) z).
      split; [destruct z; try contradiction; reflexivity|]. split; [reflexivity|]. split; [reflexivity|]. split.
      * unfold operation_pdf. change (named "TextFont") with (Some (str "Tf")). unfold ContentWrite.shape. cbn [map join_sp]. rewrite <- !app_assoc. reflexivity.
      * eexists. split; [reflexivity|standard].
    + intros H. destruct l as [|a [|b [|]]]; try reflexivity. cbn [text_font]. destruct a; try reflexivity. destruct b; try reflexivity;
        (exfalso; apply H; split; [cbn [In]; intros X; intuition discriminate|split; [intros _; eexists; eexists; split; [reflexivity|exact I]|split; discriminate]]).
  - change (make_operation l (content_dictionary (str "Tj"), str "Tj")) with (text_show l). split.
    + intros H. words H. destruct (W1 eq_refl) as (v & [->| ->]); eexists; (split; [reflexivity|]); (split; [reflexivity|]); (split; [reflexivity|]);
        (split; [reflexivity|]); eexists; (split; [reflexivity|standard]).
    + intros H. destruct l as [|a [|]]; try reflexivity. destruct a; try reflexivity;
        (exfalso; apply H; split; [cbn [In]; intros X; intuition discriminate|split; [discriminate|split; [intros _; eexists; tauto|discriminate]]]).
  - change (make_operation l (content_dictionary (str "TJ"), str "TJ")) with (text_show_array l). split.
    + intros H. words H. destruct (W2 eq_refl) as (v & ->); eexists; (split; [reflexivity|]); (split; [reflexivity|]); (split; [reflexivity|]);
        (split; [reflexivity|]); eexists; (split; [reflexivity|standard]).
    + intros H. destruct l as [|a [|]]; try reflexivity. destruct a; try reflexivity;
        (exfalso; apply H; split; [cbn [In]; intros X; intuition discriminate|split; [discriminate|split; [discriminate|intros _; eexists; reflexivity]]]).
Qed.

Lemma own_dec : forall w, In w own_class \/ ~ In w own_class.
Proof.
  intros w. destruct (existsb (bytes_eqb w) own_class) eqn:E.
  - left. apply existsb_exists in E. destruct E as (x & Hx & E). apply Verif.Proof.Content.str_eqb in E. rewrite E. exact Hx.
  - right. intros H. assert (X : existsb (bytes_eqb w) own_class = true); [|congruence].
    apply existsb_exists. exists w. split; [exact H|apply Verif.Proof.Content.str_eqb; reflexivity].
Qed.
Lemma generic_reports : forall l p w k, value p = Some w -> operator_type p = Some k -> reports (Generic l p) l w k.
Proof.
  intros l p w k Hv Hk. left. exists p. split; [reflexivity|]. split; [exact Hv|]. split; [exact Hk|]. split; [reflexivity|]. split.
  - intros i x H. cbn [operand_at]. rewrite Nat2N.id, H. reflexivity.
  - intros i H. cbn [operand_at]. rewrite (proj2 (nth_error_None l (N.to_nat i))) by lia. reflexivity.
Qed.
Lemma make_reports : forall l w, well_formed (l, w) -> exists o k, make_operation l (content_dictionary w, w) = Ok o /\
  kind_of w k /\ reports o l w k.
Proof.
  intros l w H. destruct (own_dec w) as [Ho|Ho].
  - destruct (proj1 (make_own l w Ho) H) as (o & E & H1 & H2 & _ & k & H3 & H4). exists o, k. split; [exact E|]. split; [exact H4|]. right. auto.
  - destruct (make_generic l w Ho) as (p & E & Hv & k & Hk & Hs). exists (Generic l p), k. split; [exact E|]. split; [exact Hs|].
    apply generic_reports; assumption.
Qed.

Lemma next_read : forall txt l w rest, operation_text txt (l, w) -> token_ends rest ->
  next_operation (txt ++ rest) = (do o <- make_operation l (content_dictionary w, w);; Ok (o, rest)).
Proof.
  intros txt l w rest H He. destruct (Content.operation_ends _ _ _ H) as [Hop _]. unfold next_operation.
  destruct (Content.operands_read txt (l, w) H rest (S (List.length (txt ++ rest))) ltac:(rewrite app_length; lia) He) as (g & Hg & E).
  rewrite E. cbn [rbind fst snd]. rewrite Token.skip_gap by exact Hg. rewrite Content.operator_read by assumption. reflexivity.
Qed.

Lemma nth_same : forall (a b : list obj), List.length a = List.length b -> (forall i x, nth_error b i = Some x -> nth_error a i = Some x) -> a = b.
Proof.
  induction a as [|x a IH]; intros [|y b] L H; try discriminate L; [reflexivity|]. f_equal.
  - specialize (H O y eq_refl). cbn in H. congruence.
  - apply IH; [cbn in L; lia|]. intros i z Hz. exact (H (S i) z Hz).
Qed.
Lemma kind_word : forall w v k, kind_of w k -> k <> "Unknown"%string ->
  forallb (fun a => negb (String.eqb (snd a) k) || bytes_eqb (fst a) v) standard_operators = true -> w = v.
Proof.
  intros w v k [H|[_ ->]] Hn E; [|congruence]. rewrite forallb_forall in E. apply E in H. cbn [fst snd] in H. rewrite String.eqb_refl in H.
  apply Verif.Proof.Content.str_eqb in H. exact H.
Qed.
Lemma reports_text : forall o l w k, reports o l w k -> kind_of w k -> operation_pdf o = Some (ContentWrite.shape l w).
Proof.
  intros o l w k [(p & H1 & H2 & H3 & H4 & H5 & _)|(H1 & H2 & H3)] Hk.
  - destruct o as [l0 p0| | | | | | | |]; try discriminate H1. injection H1 as ->.
    assert (l0 = l).
    { apply nth_same; [injection H4 as H4; lia|]. intros i x Hx. specialize (H5 i x Hx). cbn [operand_at] in H5. rewrite Nat2N.id in H5.
      destruct (nth_error l0 i); [congruence|discriminate H5]. }
    subst l0. cbn [operation_pdf]. rewrite H2. reflexivity.
  - assert (W : forall v, k <> "Unknown"%string -> forallb (fun a => negb (String.eqb (snd a) k) || bytes_eqb (fst a) v) standard_operators = true -> w = v)
      by (intros v; apply kind_word; exact Hk).
    destruct o as [l0 p0| | |n z|t|a| | |]; try discriminate H3; injection H1 as <-; vm_compute in H2; injection H2 as <-.
    + rewrite (W (str "BT")) by (vm_compute; congruence). reflexivity.
    + rewrite (W (str "ET")) by (vm_compute; congruence). reflexivity.
    + rewrite (W (str "Tf")) by (vm_compute; congruence). unfold operation_pdf. change (named "TextFont") with (Some (str "Tf")).
      unfold ContentWrite.shape. cbn [map join_sp]. rewrite <- !app_assoc. reflexivity.
    + rewrite (W (str "Tj")) by (vm_compute; congruence). reflexivity.
    + rewrite (W (str "TJ")) by (vm_compute; congruence). reflexivity.
    + rewrite (W (str "BI")) by (vm_compute; congruence). reflexivity.
    + rewrite (W (str "ID")) by (vm_compute; congruence). reflexivity.
    + rewrite (W (str "EI")) by (vm_compute; congruence). reflexivity.
Qed.

(** ** edits *)
Lemma last_put_step : forall (put : edit -> obj -> Prop) e h old mid new,
  ((put e mid) \/ (mid = old /\ forall v, ~ put e v)) -> last_put put h mid new -> last_put put (e :: h) old new.
Proof.
  intros put e h old mid new He [(b & e0 & a & -> & H1 & H2)|[H1 ->]].
  - left. exists (e :: b), e0, a. auto.
  - destruct He as [He|[-> He]].
    + left. exists [], e, h. auto.
    + right. split; [|reflexivity]. intros e' v [<-|Hi]; auto.
Qed.
Lemma last_put_nil : forall put old, last_put put [] old old.
Proof. intros put old. right. split; [intros e v []|reflexivity]. Qed.

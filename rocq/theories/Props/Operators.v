(** C90: content operators are those of the standard. *)
From Coq Require Import List NArith ZArith Bool Lia String.
From Coq Require Import List.
From Verif.Model Require Import Base Object Token Content Operators.
From Verif.Spec Require Import Strings Grammar Content Operators.
From Verif.Proof Require Import Tac.
From Verif.Proof Require Operators ContentWrite Content.
Import ListNotations.
Local Open Scope N_scope.

(** Every text of an operation, with any operands and any word for an operator, is read as an operation that reports the operator the
    standard has for the word (or that it is unknown), its bytes, and the operands in their order; indexes past the operands are
    refused. *)
Theorem C90_operator_partial : forall txt l w rest, operation_text txt (l, w) -> well_formed (l, w) -> token_ends rest ->
  exists o k, next_operation (txt ++ rest) = Ok (o, rest) /\ kind_of w k /\ reports o l w k.
Proof.
  intros txt l w rest H Hw He. destruct (Operators.make_reports l w Hw) as (o & k & E & Hk & Hr). exists o, k.
  split; [|auto]. rewrite (Operators.next_read txt l w rest H He), E. reflexivity.
Qed.

(** A word has one kind. *)
Theorem C90_one_kind : forall w k k', kind_of w k -> kind_of w k' -> k = k'.
Proof. exact Operators.kind_single. Qed.

(** The operations with a class of their own are made of the operands the standard prescribes and of no others. *)
Theorem C90_wrong_operands_refused_partial : forall txt l w rest, operation_text txt (l, w) -> In w own_class -> ~ well_formed (l, w) ->
  token_ends rest -> next_operation (txt ++ rest) = Throw EGeneral.
Proof.
  intros txt l w rest H Ho Hw He. rewrite (Operators.next_read txt l w rest H He), (proj2 (Operators.make_own l w Ho) Hw). reflexivity.
Qed.

(** All other operators take any operands, and the operation does not say which one it is: the type of the operation is Generic, although
    the API has a type for every operator. *)
Theorem C90_any_operands_refuted : forall txt l w rest, operation_text txt (l, w) -> ~ In w own_class -> token_ends rest ->
  exists o k, next_operation (txt ++ rest) = Ok (o, rest) /\ reports o l w k /\ kind_of w k /\ operation_type o = Some "Generic"%string.
Proof.
  intros txt l w rest H Ho He. rewrite (Operators.next_read txt l w rest H He).
  destruct (Operators.make_generic l w Ho) as (p & E & Hv & k & Hk & Hs). exists (Generic l p), k. rewrite E.
  split; [reflexivity|]. split; [apply Operators.generic_reports; assumption|]. split; [exact Hs|reflexivity].
Qed.
(** for instance q with an operand, which the standard does not allow *)
Theorem C90_save_state_refuted : exists o, next_operation (str "1 q ") = Ok (o, str " ") /\ In (str "q", "SaveGraphicsState"%string) standard_operators /\
  In ("SaveGraphicsState"%string, "SaveGraphicsState"%string) operation_types /\ operation_type o = Some "Generic"%string.
Proof.
  eexists. split; [vm_compute; reflexivity|]. split; [apply Operators.of_word_some; vm_compute; reflexivity|].
  split; [unfold operation_types; cbn [In]; tauto|vm_compute; reflexivity].
Qed.

(** What an operation is written as is read as an operation that reports the same. *)
Theorem C90_written : forall o l w k rest, reports o l w k -> kind_of w k -> writable_operation (l, w) -> token_ends rest ->
  exists txt o', operation_pdf o = Some txt /\ next_operation (txt ++ rest) = Ok (o', rest) /\ reports o' l w k.
Proof.
  intros o l w k rest Hr Hk Hw He. destruct Hw as (H1 & H2 & H3 & H4). cbn [fst snd] in *.
  assert (Ht : operation_text (ContentWrite.shape l w) (l, w)).
  { apply ContentWrite.shape_text; [|exact H1]. rewrite Forall_forall in *. intros x Hx. apply ContentWrite.to_pdf_operand; [auto|].
    rewrite forallb_forall in H4. auto. }
  destruct (C90_operator_partial _ _ _ rest Ht H2 He) as (o' & k' & E & Hk' & Hr').
  exists (ContentWrite.shape l w), o'. split; [apply (Operators.reports_text o l w k); assumption|]. split; [exact E|].
  rewrite (C90_one_kind w k k' Hk Hk'). exact Hr'.
Qed.

(** Over every history of changes each place of an operation holds the value that was put there last. *)
Theorem C90_font_edits : forall h n z, exists n' z', apply_edits h (TextFont n z) = TextFont n' z' /\
  last_put (fun e v => e = SetName v) h n n' /\ last_put (fun e v => e = SetScale v) h z z'.
Proof.
  induction h as [|e h IH]; intros n z.
  - exists n, z. split; [reflexivity|split; apply Operators.last_put_nil].
  - destruct e as [v|v|v|v]; cbn [apply_edits apply_edit].
    + destruct (IH v z) as (n' & z' & E & H1 & H2). exists n', z'. split; [exact E|].
      split; (eapply Operators.last_put_step; [|eassumption]); [left; reflexivity|right; split; [reflexivity|discriminate]].
    + destruct (IH n v) as (n' & z' & E & H1 & H2). exists n', z'. split; [exact E|].
      split; (eapply Operators.last_put_step; [|eassumption]); [right; split; [reflexivity|discriminate]|left; reflexivity].
    + destruct (IH n z) as (n' & z' & E & H1 & H2). exists n', z'. split; [exact E|].
      split; (eapply Operators.last_put_step; [|eassumption]); right; split; [reflexivity|discriminate|reflexivity|discriminate].
    + destruct (IH n z) as (n' & z' & E & H1 & H2). exists n', z'. split; [exact E|].
      split; (eapply Operators.last_put_step; [|eassumption]); right; split; [reflexivity|discriminate|reflexivity|discriminate].
Qed.
Theorem C90_text_edits : forall h t, exists t', apply_edits h (TextShow t) = TextShow t' /\ last_put (fun e v => e = SetText v) h t t'.
Proof.
  induction h as [|e h IH]; intros t; [exists t; split; [reflexivity|apply Operators.last_put_nil]|].
  destruct e as [v|v|v|v]; cbn [apply_edits apply_edit];
    [destruct (IH t) as (t' & E & H)|destruct (IH t) as (t' & E & H)|destruct (IH v) as (t' & E & H)|destruct (IH t) as (t' & E & H)];
    exists t'; (split; [exact E|]); (eapply Operators.last_put_step; [|eassumption]);
    first [left; reflexivity|right; split; [reflexivity|discriminate]].
Qed.
Theorem C90_items_edits : forall h a, exists a', apply_edits h (TextShowArray a) = TextShowArray a' /\ last_put (fun e v => e = SetItems v) h a a'.
Proof.
  induction h as [|e h IH]; intros t; [exists t; split; [reflexivity|apply Operators.last_put_nil]|].
  destruct e as [v|v|v|v]; cbn [apply_edits apply_edit];
    [destruct (IH t) as (t' & E & H)|destruct (IH t) as (t' & E & H)|destruct (IH t) as (t' & E & H)|destruct (IH v) as (t' & E & H)];
    exists t'; (split; [exact E|]); (eapply Operators.last_put_step; [|eassumption]);
    first [left; reflexivity|right; split; [reflexivity|discriminate]].
Qed.
(** Operations of other kinds are not changed through such handles. *)
Theorem C90_other_edits : forall e o, (match o with TextFont _ _ | TextShow _ | TextShowArray _ => False | _ => True end) -> apply_edit e o = None.
Proof. intros e o H. destruct o; try contradiction; destruct e; reflexivity. Qed.

(** ** cases *)
Example C90_case : (exists o, next_operation (str "1 0 0 rg ") = Ok (o, str " ") /\ reports o [OInt 1; OInt 0; OInt 0] (str "rg") "SetNonstrokingColorSpaceRGB") /\
  (exists o, next_operation (str "/F1 12 Tf ") = Ok (o, str " ") /\ reports o [OName (str "F1"); OInt 12] (str "Tf") "TextFont") /\
  (exists o, next_operation (str "7 zz ") = Ok (o, str " ") /\ reports o [OInt 7] (str "zz") "Unknown") /\
  next_operation (str "7 Tf ") = Throw EGeneral.
Proof.
  split; [|split; [|split]].
  - eexists. split; [vm_compute; reflexivity|]. apply Operators.generic_reports; vm_compute; reflexivity.
  - eexists. split; [vm_compute; reflexivity|]. right. repeat split.
  - eexists. split; [vm_compute; reflexivity|]. apply Operators.generic_reports; vm_compute; reflexivity.
  - vm_compute. reflexivity.
Qed.
Example C90_edit_case : apply_edits [SetName (OName (str "F2")); SetText (OLit (str "x")); SetScale (OInt 9); SetName (OName (str "F3"))]
  (TextFont (OName (str "F1")) (OInt 12)) = TextFont (OName (str "F3")) (OInt 9).
Proof. reflexivity. Qed.

Print Assumptions C90_operator_partial.
Print Assumptions C90_one_kind.
Print Assumptions C90_wrong_operands_refused_partial.
Print Assumptions C90_any_operands_refuted.
Print Assumptions C90_save_state_refuted.
Print Assumptions C90_written.
Print Assumptions C90_font_edits.
Print Assumptions C90_text_edits.
Print Assumptions C90_items_edits.
Print Assumptions C90_other_edits.

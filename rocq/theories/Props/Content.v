(** C43: content streams. *)
From Coq Require Import List NArith ZArith Bool Lia String.
From Coq Require Import List.
From Verif.Model Require Import Base Char Object Token Parser Content.
From Verif.Spec Require Import Strings Grammar Content.
From Verif.Proof Require Import Tac Strings ParserAny CharMap Content ContentWrite ContentEnds.
Import ListNotations.
Local Open Scope N_scope.

(** A text that denotes a list of instructions is read as that list.  Missing: the white space after ID is reported as the first byte of
    the data of an inline image ([with_space]; the standard's reading is [proper]). *)
Theorem C43_reads_partial : forall txt l, content_text with_space txt l -> exists is, parse_content txt = Ok is /\ map seen is = l.
Proof.
  intros txt l H. destruct (content_reads _ _ H (List.length txt + 2) ltac:(lia)) as (is & E & Es & _). eauto.
Qed.

(** Without inline images the reading is the standard's. *)
Theorem C43_reads_standard : forall txt l, content_text proper txt l -> Forall no_image l -> exists is, parse_content txt = Ok is /\ map seen is = l.
Proof.
  intros txt l H Hn. apply C43_reads_partial. induction H; try (inversion Hn; subst).
  - constructor; assumption.
  - apply ct_op; auto.
  - apply ct_text; auto.
  - contradiction.
Qed.

(** Instructions that were read from any text, written and read again are the same instructions.  Missing: inline images (see
    C43_images_grow) and operations that cannot be written, see C43_open_text_refuted. *)
Theorem C43_roundtrip_partial : forall txt is, parse_content txt = Ok is -> Forall (fun i => writable_instruction (seen i)) is ->
  Forall (fun i => no_image (seen i)) is -> parse_content (write_content is) = Ok is.
Proof.
  intros txt is H Hw Hn. assert (C := content_written is Hw).
  destruct (content_reads _ _ C (List.length (write_content is) + 2) ltac:(lia)) as (is2 & E & Es & Hc). unfold parse_content. rewrite E. f_equal.
  symmetry. apply instrs_equal; [eapply instructions_canonical; exact H|exact Hc|]. rewrite Es. clear - Hn. induction is as [|i is IH]; [reflexivity|].
  inversion Hn; subst. cbn [map]. f_equal; [|auto]. destruct i; cbn in *; [reflexivity|reflexivity|contradiction].
Qed.

(** Any instructions an application holds, written and read, are the same but for one line break in front of the data of each image. *)
Theorem C43_images_grow : forall is, Forall (fun i => writable_instruction (seen i)) is ->
  exists is2, parse_content (write_content is) = Ok is2 /\ map seen is2 = map grown (map seen is).
Proof. intros is Hw. apply C43_reads_partial, content_written. exact Hw. Qed.

(** ** tools for the cases *)
Lemma an_operator : forall w, forallb is_regular w = true ->
  match w with [] => False | c :: _ => ~ decimal_digit c /\ ~ In c [43; 45; 46] end -> existsb (bytes_eqb w) [str "true"; str "false"; str "null"] = false ->
  operator_word w.
Proof.
  intros w Hr Hc He. split; [intros ->; exact Hc|]. split; [|split].
  - apply Forall_forall. intros c Hi. apply is_regular_spec. rewrite forallb_forall in Hr. auto.
  - intros c t ->. exact Hc.
  - intros Hi. assert (T : existsb (bytes_eqb w) [str "true"; str "false"; str "null"] = true); [|congruence].
    apply existsb_exists. exists w. split; [exact Hi|apply bytes_eqb_eq; reflexivity].
Qed.
Lemma white_gap : forall g, Forall (fun c => In c pdf_white) g -> gap g.
Proof. intros g H. induction H; constructor; assumption. Qed.
Ltac operator := apply an_operator; [reflexivity|vm_compute; intuition (discriminate || lia)|reflexivity].
Ltac blank := apply white_gap; repeat (apply Forall_cons; [vm_compute; tauto|]); apply Forall_nil.
Lemma a_digit : forall c, 48 <= c <= 57 -> object_text [c] (OInt (Z.of_N (c - 48))).
Proof.
  intros c H. assert (O := ot_int [] false [c] st_none). cbn [app signed] in O. unfold decimal_value in O. cbn [fold_left] in O. replace (10 * 0 + (c - 48)) with (c - 48) in O by lia.
  apply O; [discriminate|repeat constructor; unfold decimal_digit; lia|lia].
Qed.

(** So every time a page with an inline image is written and read, its data becomes longer. *)
Definition an_image (data : list N) : instr := IImage [(str "W", OInt 1)] data.
Lemma short_unmarked : forall before data after, (List.length data <= 1)%nat -> (before = 69 -> False) -> (data = [69] -> False) -> unmarked before data after.
Proof.
  intros b data a L Hb Hd. split.
  - intros (p & q & u & v & _ & _ & E). apply (f_equal (@List.length N)) in E. cbn [List.length] in E. rewrite !app_length in E. cbn [List.length] in E. lia.
  - intros (p & u & _ & E). destruct data as [|x data]; [destruct p as [|? [|? ?]]; cbn in E; try discriminate; inversion E; congruence|].
    destruct data; [|cbn in L; lia]. destruct p as [|? p]; cbn [app] in E; [inversion E; subst; auto|]. destruct p as [|? p]; [discriminate|]. destruct p; discriminate.
Qed.
Theorem C43_image_data_refuted : exists is is2, Forall (fun i => writable_instruction (seen i)) is /\
  parse_content (write_content is) = Ok is2 /\ map seen is2 <> map seen is.
Proof.
  exists [an_image (str "x")], [an_image (10 :: str "x")]. split; [|split; [vm_compute; reflexivity|discriminate]].
  apply Forall_cons; [|constructor]. cbn [seen an_image writable_instruction]. split; [|split].
  - unfold keys_sorted. repeat constructor.
  - apply Forall_cons; [|constructor]. cbn [fst snd]. split; [|split; [discriminate|split; [|reflexivity]]].
    + repeat constructor.
    + constructor. lia.
  - apply short_unmarked; [cbn; lia|discriminate|discriminate].
Qed.

(** The white space after ID is not part of the data (8.9.7), but it is reported as data. *)
Lemma image_text : forall held, content_text held (str "BI /W 1 ID x EI ") [SImage [(str "W", OInt 1)] (held 32 (str "x"))].
Proof.
  intros held. apply (ct_image held (str "BI") (str " /W 1 ID") [(str "W", OInt 1)] [(str "W", OInt 1)] 32 (str "x") 32 32 []).
  - apply (ox_operator [] (str "BI")); [constructor|operator].
  - vm_compute. tauto.
  - apply (ie_entry (str " ") (str "W") (str "W") (str " ") (str "1") (OInt 1) (str " ID")); [blank| |blank| | | |].
    + apply nt_plain; [reflexivity|apply is_regular_spec; reflexivity|discriminate|constructor].
    + apply od_scalar; [apply (a_digit 49); lia|reflexivity].
    + vm_compute. tauto.
    + intros _. vm_compute. tauto.
    + apply (ie_data (str " ")). blank.
  - repeat constructor. intros [].
  - split; [unfold keys_sorted; repeat constructor|]. intros k v. cbn [In first_value]. destruct (list_eq_dec N.eq_dec k (str "W")) as [->|Hn].
    + split; [intros [H|[]]; inversion H; reflexivity|]. intros H. inversion H. left. reflexivity.
    + split; [intros [H|[]]; inversion H; congruence|discriminate].
  - vm_compute. tauto.
  - vm_compute. tauto.
  - vm_compute. tauto.
  - apply short_unmarked; [cbn; lia|discriminate|discriminate].
  - constructor. constructor.
Qed.
Theorem C43_image_space_refuted : exists txt l is, content_text proper txt l /\ parse_content txt = Ok is /\ map seen is <> l.
Proof.
  exists (str "BI /W 1 ID x EI "), [SImage [(str "W", OInt 1)] (str "x")], [an_image (str " x")].
  split; [apply (image_text proper)|split; [vm_compute; reflexivity|discriminate]].
Qed.

(** Image data whose last byte is an E after white space runs over the end marker, and an image at the very end of a stream is refused. *)
Theorem C43_image_end_refuted : parse_content (str "BI /W 1 ID a E EI ") = Throw EConversion /\ parse_content (str "BI /W 1 ID x EI") = Throw EConversion.
Proof. split; vm_compute; reflexivity. Qed.

(** A text object without ET is read, but what is written for it cannot be read. *)
Theorem C43_open_text_refuted : exists txt is, parse_content txt = Ok is /\ parse_content (write_content is) = Throw EGeneral.
Proof.
  exists (str "BT 1 2"), [IText [OpGeneric [OInt 1; OInt 2] []]]. split; vm_compute; reflexivity.
Qed.

(** The parser ends on every text without BI. *)
Theorem C43_ends_partial : forall txt, ~ (exists a b, txt = a ++ str "BI" ++ b) -> parse_content txt <> NoFuel.
Proof. intros txt H E. apply H. destruct (stuck (List.length txt + 2) txt ltac:(lia) E) as [_ Hb]. exact Hb. Qed.

(** With BI it may run forever: an image dictionary with something that is neither a name nor ID. *)
Theorem C43_ends_refuted : forall fuel, read_instructions fuel (str "BI 5 ID x EI ") = NoFuel.
Proof. apply (stuck (List.length (str "BI 5 ID x EI ") + 2)); [cbn; lia|vm_compute; reflexivity]. Qed.

(** The bound in [parse_content] is not what stops it: where it is reached every bound is. *)
Theorem C43_bound : forall txt, parse_content txt = NoFuel -> forall fuel, read_instructions fuel txt = NoFuel.
Proof. intros txt H. apply (stuck (List.length txt + 2)); [lia|exact H]. Qed.

(** ** cases *)
Example C43_case_reads : content_text proper (str "BT /F 9 Tf (x) Tj ET 1 w") [SText [([OName (str "F"); OInt 9], str "Tf"); ([OLit (str "x")], str "Tj")]; SOperation ([OInt 1], str "w")].
Proof.
  apply (ct_text proper (str "BT") (str " /F 9 Tf (x) Tj ET") [([OName (str "F"); OInt 9], str "Tf"); ([OLit (str "x")], str "Tj")] (str " 1 w")).
  - apply (ox_operator [] (str "BT")); [constructor|operator].
  - vm_compute. tauto.
  - apply (os_more (str " /F 9 Tf") ([OName (str "F"); OInt 9], str "Tf") (str " (x) Tj ET")).
    + apply (ox_operand (str " ") (str "/F") (OName (str "F")) (str " 9 Tf")); [blank| | |intros _; vm_compute; tauto].
      * apply od_scalar; [|reflexivity]. apply (ot_name (str "F")). apply nt_plain; [reflexivity|apply is_regular_spec; reflexivity|discriminate|constructor].
      * apply (ox_operand (str " ") (str "9") (OInt 9) (str " Tf")); [blank| | |intros _; vm_compute; tauto].
        -- apply od_scalar; [apply (a_digit 57); lia|reflexivity].
        -- apply (ox_operator (str " ") (str "Tf")); [blank|operator].
    + cbn [well_formed]. split; [intros H; exfalso; revert H; vm_compute; intuition discriminate|]. split; [intros _; exists (str "F"), (OInt 9); split; [reflexivity|exact I]|].
      split; discriminate.
    + discriminate.
    + vm_compute. tauto.
    + apply (os_more (str " (x) Tj") ([OLit (str "x")], str "Tj") (str " ET")).
      * apply (ox_operand (str " ") (str "(x)") (OLit (str "x")) (str " Tj")); [blank| | |intros _; vm_compute; tauto].
        -- apply od_scalar; [|reflexivity]. apply (ot_lit (str "x")). apply lt_plain; [..|constructor]; vm_compute; intuition discriminate.
        -- apply (ox_operator (str " ") (str "Tj")); [blank|operator].
      * cbn [well_formed]. split; [intros H; exfalso; revert H; vm_compute; intuition discriminate|]. split; [discriminate|]. split; [intros _; exists (str "x"); left; reflexivity|discriminate].
      * discriminate.
      * vm_compute. tauto.
      * apply os_end. apply (ox_operator (str " ") (str "ET")); [blank|operator].
  - vm_compute. tauto.
  - apply (ct_op proper (str " 1 w") ([OInt 1], str "w") []).
    + apply (ox_operand (str " ") (str "1") (OInt 1) (str " w")); [blank|apply od_scalar; [apply (a_digit 49); lia|reflexivity]| |intros _; vm_compute; tauto].
      apply (ox_operator (str " ") (str "w")); [blank|operator].
    + cbn [well_formed]. split; [intros H; exfalso; revert H; vm_compute; intuition discriminate|]. split; [discriminate|]. split; discriminate.
    + vm_compute. intuition discriminate.
    + exact I.
    + constructor. constructor.
Qed.
Example C43_case_image : content_text with_space (str "BI /W 1 ID x EI ") [SImage [(str "W", OInt 1)] (str " x")].
Proof. apply (image_text with_space). Qed.
Definition some_instructions : list instr :=
  [IText [OpTextFont (OName (str "F")) (OInt 9); OpTextShow (OLit (str "x")); OpGeneric [] (str "T*")]; IOp (OpGeneric [OInt 1] (str "w"))].
Example C43_case_roundtrip : parse_content (str "BT /F 9 Tf (x) Tj T* ET 1 w") = Ok some_instructions /\
  Forall (fun i => writable_instruction (seen i)) some_instructions /\ Forall (fun i => no_image (seen i)) some_instructions.
Proof.
  split; [vm_compute; reflexivity|]. split; [|repeat constructor].
  apply Forall_cons; [|apply Forall_cons; [|constructor]]; cbn [seen seen_op map writable_instruction].
  - apply Forall_cons; [|apply Forall_cons; [|apply Forall_cons; [|constructor]]]; (split; [|discriminate]); (split; [operator|]); cbn [fst snd].
    + split; [|split; [repeat constructor; lia|reflexivity]]. cbn [well_formed]. split; [intros H; exfalso; revert H; vm_compute; intuition discriminate|].
      split; [intros _; exists (str "F"), (OInt 9); split; [reflexivity|exact I]|]. split; discriminate.
    + split; [|split; [repeat constructor|reflexivity]]. cbn [well_formed]. split; [intros H; exfalso; revert H; vm_compute; intuition discriminate|].
      split; [discriminate|]. split; [intros _; exists (str "x"); left; reflexivity|discriminate].
    + split; [|split; [constructor|reflexivity]]. cbn [well_formed]. split; [intros _; reflexivity|]. split; [discriminate|]. split; discriminate.
  - split; [|vm_compute; intuition discriminate]. split; [operator|]. cbn [fst snd]. split; [|split; [repeat constructor; lia|reflexivity]].
    cbn [well_formed]. split; [intros H; exfalso; revert H; vm_compute; intuition discriminate|]. split; [discriminate|]. split; discriminate.
Qed.
Example C43_case_ends : ~ (exists a b, str "1 w" = a ++ str "BI" ++ b).
Proof.
  intros (a & b & E). change (str "1 w") with [49; 32; 119] in E. destruct a as [|? [|? a]]; try discriminate.
  apply (f_equal (@List.length N)) in E. cbn [List.length app] in E. rewrite !app_length in E. cbn [List.length str] in E. change (List.length (str "BI")) with 2%nat in E. lia.
Qed.

Print Assumptions C43_reads_partial.
Print Assumptions C43_reads_standard.
Print Assumptions C43_roundtrip_partial.
Print Assumptions C43_images_grow.
Print Assumptions C43_image_data_refuted.
Print Assumptions C43_image_space_refuted.
Print Assumptions C43_image_end_refuted.
Print Assumptions C43_open_text_refuted.
Print Assumptions C43_ends_partial.
Print Assumptions C43_ends_refuted.
Print Assumptions C43_bound.

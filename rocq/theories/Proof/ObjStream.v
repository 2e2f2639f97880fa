(** Lemmas for the object stream theorems. *)
From Coq Require Import List NArith ZArith Bool Lia String Permutation Sorted.
From Verif.Model Require Import Base Char Numbers SMap Object Token Parser Arith Xref ObjStream.
From Verif.Spec Require Import Strings Grammar ObjStream.
From Verif.Proof Require Import Tac Numbers Strings Token SMap Parser Writer Arith Xref FileWrite.
Import ListNotations.
Local Open Scope N_scope.

(** ** Sorting *)
Lemma insert_perm : forall e l, Permutation (insert_by_index e l) (e :: l).
Proof.
  intros e l. induction l as [|x t IH]; cbn [insert_by_index]; [reflexivity|]. cif.
  - rewrite IH. apply perm_swap.
  - reflexivity.
Qed.
Lemma sort_perm : forall l, Permutation (sort_by_index l) l.
Proof.
  induction l as [|e t IH]; cbn [sort_by_index fold_right]; [reflexivity|]. rewrite insert_perm. apply perm_skip. exact IH.
Qed.
Definition by_index (a b : comp_entry) : Prop := ce_index a <= ce_index b.
Lemma insert_sorted : forall e l, StronglySorted by_index l -> StronglySorted by_index (insert_by_index e l).
Proof.
  intros e l. induction l as [|x t IH]; intros H; cbn [insert_by_index].
  - apply SSorted_cons; [exact (SSorted_nil _)|apply Forall_nil].
  - inversion_clear H as [|? ? H1 H2]. cif.
    + apply SSorted_cons; [apply IH; exact H1|]. rewrite Forall_forall in H2 |- *. intros y Hy.
      apply (Permutation_in _ (insert_perm e t)) in Hy. destruct Hy as [Hy|Hy]; [subst y; unfold by_index; lia|auto].
    + apply SSorted_cons; [apply SSorted_cons; assumption|]. apply Forall_cons; [unfold by_index; lia|].
      rewrite Forall_forall in H2 |- *. intros y Hy. specialize (H2 y Hy). unfold by_index in *. lia.
Qed.
Lemma sort_sorted : forall l, StronglySorted by_index (sort_by_index l).
Proof. induction l as [|e t IH]; cbn [sort_by_index fold_right]; [exact (SSorted_nil _)|]. apply insert_sorted. exact IH. Qed.

(** ** The two texts *)
Definition tlen (e : comp_entry) : N := N.of_nat (List.length (to_pdf (ce_obj e))).
Fixpoint htext (off : N) (l : list comp_entry) : bytes :=
  match l with
  | [] => []
  | e :: t => 32 :: to_string_N (ce_num e) ++ 32 :: to_string_N off ++ htext (off + (tlen e + 1)) t
  end.
Fixpoint dtext (l : list comp_entry) : bytes :=
  match l with [] => [] | e :: t => 32 :: to_pdf (ce_obj e) ++ dtext t end.
Fixpoint offsets (off : N) (l : list comp_entry) : list (N * Z) :=
  match l with [] => [] | e :: t => (ce_num e, Z.of_N off) :: offsets (off + (tlen e + 1)) t end.

Lemma parts_false : forall l off, objstm_parts false off l = (htext off l, dtext l).
Proof.
  induction l as [|e t IH]; intros off; cbn [objstm_parts htext dtext]; [reflexivity|].
  unfold tlen in *. rewrite IH. reflexivity.
Qed.
Lemma parts_true : forall e t off h b, objstm_parts true off (e :: t) = (h, b) -> 32 :: h = htext off (e :: t) /\ 32 :: b = dtext (e :: t).
Proof.
  intros e t off h b H. cbn [objstm_parts] in H. rewrite parts_false in H. injection H as <- <-. split; reflexivity.
Qed.

Lemma dtext_look : forall l, Forall (fun e => writable (ce_obj e)) l -> look_ok (dtext l) /\ token_ends (dtext l).
Proof.
  induction l as [|e t IH]; intros H; cbn [dtext].
  - apply object_end_look. exact (oe_eof [] gap_nil).
  - inversion_clear H as [|? ? H1 H2]. destruct (IH H2) as [L T]. split.
    + change (look_ok ([32] ++ to_pdf (ce_obj e) ++ dtext t)). apply look_gap; [exact gap32|].
      apply (look_object _ (ce_obj e)); [apply to_pdf_text; exact H1|auto|apply look_head; exact L].
    + left. cbn. tauto.
Qed.

Section Read.
Variable rl : N -> N -> res Z.
Notation d := parser_dictionary.

Lemma read_member : forall o rest, writable o -> look_ok rest -> token_ends rest ->
  parse_direct d rl (to_pdf o ++ rest) = Ok (o, rest).
Proof.
  intros o rest Ho Hl Ht. unfold parse_direct. apply (proj1 (reads_text rl)); [apply to_pdf_text; exact Ho| |split; auto].
  rewrite app_length. lia.
Qed.

Lemma read_header_ok : forall num off rest, num < 2 ^ 63 -> off < 2 ^ 63 ->
  (exists c r, rest = c :: r /\ In c pdf_white) ->
  read_objstm_header d (32 :: to_string_N num ++ 32 :: to_string_N off ++ rest) = Ok ((num, Z.of_N off), rest).
Proof.
  intros num off rest Hn Ho (c & r & -> & Hc). unfold read_objstm_header.
  assert (P : forall n, to_string_N n = pad_zero 0 (to_string_N n)) by (intros n; unfold pad_zero; reflexivity).
  rewrite (P num), (P off).
  change (32 :: pad_zero 0 (to_string_N num) ++ 32 :: pad_zero 0 (to_string_N off) ++ c :: r)
    with ([32] ++ pad_zero 0 (to_string_N num) ++ 32 :: pad_zero 0 (to_string_N off) ++ c :: r).
  rewrite (expect_number d [32] 0 num 32) by (first [exact gap32|cbn; tauto]). cbn [rbind].
  change (32 :: pad_zero 0 (to_string_N off) ++ c :: r) with ([32] ++ pad_zero 0 (to_string_N off) ++ c :: r).
  rewrite (expect_number d [32] 0 off c) by (first [exact gap32|assumption]). cbn [rbind].
  rewrite !stoll_padded by assumption. cbn [rbind]. unfold to_u64. 
  change (2 ^ 63) with 9223372036854775808 in *. replace (Z.of_N num <? 0)%Z with false by lia. cbn [rbind]. rewrite N2Z.id. reflexivity.
Qed.

Definition total (l : list comp_entry) : N := N.of_nat (List.length (dtext l)).
Lemma total_cons : forall e t, total (e :: t) = tlen e + 1 + total t.
Proof. intros e t. unfold total, tlen. cbn [dtext List.length]. rewrite app_length. lia. Qed.

Lemma htext_white : forall l off rest, exists c r, htext off l ++ 32 :: rest = c :: r /\ In c pdf_white.
Proof.
  intros [|e t] off rest; cbn [htext app]; do 2 eexists; (split; [reflexivity|cbn; tauto]).
Qed.

Lemma read_headers_ok : forall l off i rest fuel,
  Forall (fun e => ce_num e < 2 ^ 63) l -> off + total l < 2 ^ 63 -> (List.length l <= fuel)%nat ->
  read_objstm_headers d fuel i (i + N.of_nat (List.length l)) (htext off l ++ 32 :: rest) = Ok (offsets off l).
Proof.
  induction l as [|e t IH]; intros off i rest fuel Hf Ho Hfuel.
  - destruct fuel; cbn [read_objstm_headers List.length]; replace (i + N.of_nat 0 <=? i) with true by lia; reflexivity.
  - inversion_clear Hf as [|? ? H1 H2]. rewrite total_cons in Ho. cbn [List.length] in Hfuel.
    destruct fuel as [|f]; [lia|]. cbn [read_objstm_headers].
    replace (i + N.of_nat (List.length (e :: t)) <=? i) with false by (cbn [List.length]; lia).
    cbn [htext]. 
    replace ((32 :: to_string_N (ce_num e) ++ 32 :: to_string_N off ++ htext (off + (tlen e + 1)) t) ++ 32 :: rest)
      with (32 :: to_string_N (ce_num e) ++ 32 :: to_string_N off ++ (htext (off + (tlen e + 1)) t ++ 32 :: rest))
      by (cbn [app]; rewrite <- !app_assoc; cbn [app]; rewrite <- !app_assoc; reflexivity).
    rewrite read_header_ok; [|assumption|lia|apply htext_white]. cbn [rbind].
    replace (i + N.of_nat (List.length (e :: t))) with (i + 1 + N.of_nat (List.length t)) by (cbn [List.length]; lia).
    rewrite IH; [reflexivity|assumption|lia|lia].
Qed.

Lemma headers_skip : forall fuel i size s, i < size ->
  read_objstm_headers d fuel i size (32 :: s) = read_objstm_headers d fuel i size s.
Proof.
  intros fuel i size s H. destruct fuel; [reflexivity|]. cbn [read_objstm_headers]. replace (size <=? i) with false by lia.
  unfold read_objstm_header, expect_skip. change (32 :: s) with ([32] ++ s). rewrite skip_gap by exact gap32. reflexivity.
Qed.

(** every pre-text whose length is one less than the position of the first member *)
Lemma read_objects_ok : forall l pre off first,
  Forall (fun e => writable (ce_obj e)) l -> N.of_nat (List.length pre) + 1 = first + off ->
  N.of_nat (List.length (pre ++ dtext l)) < 2 ^ 63 ->
  read_objstm_objects d rl (pre ++ dtext l) first (offsets off l) = Ok (map (fun e => (ce_num e, ce_obj e)) l).
Proof.
  induction l as [|e t IH]; intros pre off first Hf Hp Hlen; cbn [offsets read_objstm_objects map]; [reflexivity|].
  inversion_clear Hf as [|? ? H1 H2]. destruct (dtext_look t H2) as [L T].
  rewrite app_length in Hlen. cbn [dtext List.length] in Hlen. rewrite app_length in Hlen.
  change (2 ^ 63) with 9223372036854775808 in Hlen.
  replace ((Z.of_N first + Z.of_N off) mod 2 ^ 64)%Z with (Z.of_nat (List.length pre) + 1)%Z
    by (change (2 ^ 64)%Z with 18446744073709551616%Z; rewrite Z.mod_small; lia).
  replace (Z.of_nat (List.length pre) + 1 <=? Z.of_nat (List.length (pre ++ dtext (e :: t))))%Z with true
    by (rewrite app_length; cbn [dtext List.length]; lia).
  replace (Z.to_nat (Z.of_nat (List.length pre) + 1)) with (List.length (pre ++ [32])) by (rewrite app_length; cbn; lia).
  cbn [dtext].
  replace (pre ++ 32 :: to_pdf (ce_obj e) ++ dtext t) with ((pre ++ [32]) ++ to_pdf (ce_obj e) ++ dtext t)
    by (rewrite <- app_assoc; reflexivity).
  rewrite skipn_exact. rewrite read_member by assumption. cbn [rbind].
  replace ((pre ++ [32]) ++ to_pdf (ce_obj e) ++ dtext t) with (((pre ++ [32]) ++ to_pdf (ce_obj e)) ++ dtext t)
    by (rewrite <- !app_assoc; reflexivity).
  rewrite IH; [reflexivity|assumption| |].
  - rewrite !app_length. unfold tlen. cbn [List.length]. lia.
  - rewrite !app_length. cbn [List.length]. change (2 ^ 63) with 9223372036854775808. lia.
Qed.

Lemma dtext_count : forall l, (List.length l <= List.length (dtext l))%nat.
Proof. induction l as [|e t IH]; cbn [dtext List.length]; [lia|]. rewrite app_length. lia. Qed.

Lemma read_rebuilt : forall l n first body, l <> [] -> Forall (fun e => writable (ce_obj e) /\ ce_num e < 2 ^ 63) l ->
  rebuild_object_stream l = (n, first, body) -> N.of_nat (List.length body) < 2 ^ 63 ->
  body <> [] /\ n < 2 ^ 63 /\ first < 2 ^ 63 /\
  read_object_stream d rl first n body = Ok (map (fun e => (ce_num e, ce_obj e)) (sort_by_index l)).
Proof.
  intros l n first body Hne Hf H Hlen. unfold rebuild_object_stream in H.
  assert (P := sort_perm l). assert (Hs : Forall (fun e => writable (ce_obj e) /\ ce_num e < 2 ^ 63) (sort_by_index l)).
  { rewrite Forall_forall in Hf |- *. intros e He. apply Hf. apply (Permutation_in _ P). exact He. }
  assert (Hsne : sort_by_index l <> []).
  { intros E. rewrite E in P. apply Permutation_nil in P. congruence. }
  destruct (sort_by_index l) as [|e t] eqn:El; [congruence|].
  destruct (objstm_parts true 0 (e :: t)) as [h b] eqn:Ep. apply parts_true in Ep. destruct Ep as [Eh Eb].
  injection H as <- <- <-.
  assert (Ebody : h ++ 32 :: b = h ++ dtext (e :: t)) by (rewrite <- Eb; reflexivity).
  rewrite Ebody in Hlen |- *.
  assert (W : Forall (fun e => writable (ce_obj e)) (e :: t)) by (revert Hs; apply Forall_impl; tauto).
  assert (B : Forall (fun e => ce_num e < 2 ^ 63) (e :: t)) by (revert Hs; apply Forall_impl; tauto).
  assert (C := dtext_count (e :: t)).
  rewrite app_length in Hlen. change (2 ^ 63) with 9223372036854775808 in Hlen.
  assert (C1 : (1 <= List.length (dtext (e :: t)))%nat) by (cbn [dtext List.length]; lia).
  split; [intros E; apply (f_equal (@List.length N)) in E; rewrite app_length in E; cbn [List.length] in E; lia|].
  change (2 ^ 63) with 9223372036854775808. split; [cbn [List.length] in *; lia|]. split; [lia|].
  unfold read_object_stream.
  (* the first header has no leading space *)
  assert (R : read_objstm_headers d (S (List.length (h ++ dtext (e :: t)))) 0 (N.of_nat (List.length (e :: t))) (h ++ dtext (e :: t))
    = Ok (offsets 0 (e :: t))).
  { rewrite <- (headers_skip _ 0) by (cbn [List.length]; lia).
    replace (32 :: h ++ dtext (e :: t)) with (htext 0 (e :: t) ++ 32 :: b) by (rewrite <- Eh, <- Eb; reflexivity).
    apply (read_headers_ok (e :: t) 0 0 b).
    - exact B.
    - unfold total. change (2 ^ 63) with 9223372036854775808. lia.
    - rewrite app_length. cbn [List.length] in *. lia. }
  change (N.pos (Pos.of_succ_nat (List.length t))) with (N.of_nat (List.length (e :: t))). rewrite R. cbn [rbind]. apply read_objects_ok; [exact W|lia|].
  rewrite app_length. change (2 ^ 63) with 9223372036854775808. lia.
Qed.
End Read.

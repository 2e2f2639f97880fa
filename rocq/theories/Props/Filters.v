(** C08, C09, C10: stream filters. *)
From Coq Require Import List NArith ZArith Bool Lia String.
From Verif.Model Require Import Base Char Numbers Arith Filters.
From Verif.Spec Require Import Strings Arith Filters.
From Verif.Proof Require Import Tac Arith Filters.
Import ListNotations.
Local Open Scope N_scope.

(** C08.  Wherever the compiler lets [int] wrap around, every standard text (white space anywhere, end marker) decodes to the
    bytes it encodes. *)
Theorem C08_ascii85_decodes_wrapping : forall body v n rest, ascii85_text (without_white body) v -> (List.length body < n)%nat ->
  ascii85_decode false (body ++ [126; 62] ++ rest) n = Ok v.
Proof.
  intros body v n rest H Hn. unfold ascii85_decode. rewrite a85_loop_clean.
  - apply a85_clean_text; [exact H|]. intro; discriminate.
  - exact (ascii85_no_tilde _ _ H).
  - right. split; [exact Hn|]. exists rest. reflexivity.
Qed.
(** text without end marker, ended by the given List.length *)
Theorem C08_ascii85_decodes_by_length : forall body v rest, ascii85_text (without_white body) v ->
  ascii85_decode false (body ++ rest) (List.length body) = Ok v.
Proof.
  intros body v rest H. unfold ascii85_decode. rewrite a85_loop_clean.
  - apply a85_clean_text; [exact H|]. intro; discriminate.
  - exact (ascii85_no_tilde _ _ H).
  - left. reflexivity.
Qed.
(** with the C++ rule that signed overflow is undefined, the same holds when all groups are below 2^31 *)
Theorem C08_ascii85_decodes_partial : forall body v n rest, ascii85_text (without_white body) v -> (List.length body < n)%nat ->
  groups_below_2_31 v -> ascii85_decode true (body ++ [126; 62] ++ rest) n = Ok v.
Proof.
  intros body v n rest H Hn G. unfold ascii85_decode. rewrite a85_loop_clean.
  - apply a85_clean_text; [exact H|]. intro; exact G.
  - exact (ascii85_no_tilde _ _ H).
  - right. split; [exact Hn|]. exists rest. reflexivity.
Qed.
Theorem C08_ascii85_overflow_refuted : exists txt v, ascii85_text txt v /\
  ascii85_decode true (txt ++ [126; 62]) (List.length txt + 2) = Undef.
Proof.
  exists [33 + 82; 33 + 23; 33 + 54; 33 + 12; 33 + 0], [255; 255; 255; 255]. split; [|vm_compute; reflexivity].
  apply a85_group; [unfold byte4; lia|unfold digits85; rewrite be4; lia|constructor].
Qed.
(** every byte string has such a text *)
Theorem C08_every_string_has_text : forall v, all_bytes v -> exists txt, ascii85_text txt v.
Proof. intros v H. exact (ascii85_text_exists (List.length v) v (le_n _) H). Qed.
Example C08_case : ascii85_decode true (str "9jqo^Bl bD-BleB1DJ+*+F(f,q ~> endstream") 40 = Ok (str "Man is distinguished").
Proof. vm_compute. reflexivity. Qed.
Example C08_case2 : ascii85_text [122; 33 + 82; 33 + 23; 33 + 45] [0; 0; 0; 0; 255; 255].
Proof. apply a85_z. apply (a85_two 82 23 45 6 0); [unfold byte4; lia|unfold digits85; rewrite be4; lia]. Qed.

(** C09 *)
Theorem C09_asciihex_partial : forall txt v n rest, hex_text txt v -> Nat.even (List.length (without_white txt)) = true ->
  (List.length txt < n)%nat -> asciihex_decode (txt ++ [62] ++ rest) n = Ok v.
Proof.
  intros txt v n rest H He Hn. destruct (ahex_text txt v H n ([62] ++ rest)) as (w & E & A).
  - right. split; [exact Hn|]. exists rest. reflexivity.
  - unfold nonwhite_count in A. rewrite He in A. inversion A; subst. exact E.
Qed.
(** a lone last digit x is decoded as the byte x instead of 16 x: for every text with an odd number of digits *)
Theorem C09_odd_digit_refuted : forall txt v n rest, hex_text txt v -> Nat.even (List.length (without_white txt)) = false ->
  (List.length txt < n)%nat -> exists u x, v = u ++ [16 * x] /\ asciihex_decode (txt ++ [62] ++ rest) n = Ok (u ++ [x]).
Proof.
  intros txt v n rest H He Hn. destruct (ahex_text txt v H n ([62] ++ rest)) as (w & E & A).
  - right. split; [exact Hn|]. exists rest. reflexivity.
  - unfold nonwhite_count in A. rewrite He in A. inversion A; subst. exists v0, x. split; [reflexivity|exact E].
Qed.
(** a character that is no hexadecimal digit is not reported when it stands second *)
Theorem C09_invalid_digit_refuted : asciihex_decode (str "1G2Z>") 5 = Ok [1; 2].
Proof. vm_compute. reflexivity. Qed.
Example C09_case : asciihex_decode (str "4 1 6b" ++ [10] ++ str ">") 8 = Ok [65; 107] /\ asciihex_decode (str "416>") 4 = Ok [65; 6] /\
  hex_text (str "416") [65; 96].
Proof.
  split; [vm_compute; reflexivity|]. split; [vm_compute; reflexivity|].
  apply (ht_pair 52 [] 49 4 1); [apply (hd_dec 4); lia|constructor|apply (hd_dec 1); lia|].
  apply (ht_odd 54 [] 6); [apply (hd_dec 6); lia|constructor].
Qed.

(** C10 *)
Lemma predictor_ok : forall predictor colors bpc columns s, (10 <= predictor)%Z -> (1 <= colors)%Z -> (1 <= bpc)%Z -> (1 <= columns)%Z ->
  (colors * columns * bpc + 7 < 2 ^ 32)%Z ->
  apply_predictor predictor colors bpc columns s =
  unfilter (List.length s) (Z.to_nat (colors * bpc / 8)) (Z.to_nat ((colors * columns * bpc + 7) / 8))
    (repeat 0 (Z.to_nat ((colors * columns * bpc + 7) / 8))) s.
Proof.
  intros predictor colors bpc columns s Hp Hc Hb Hl Hov. unfold apply_predictor.
  replace (predictor =? 1)%Z with false by lia. replace (predictor =? 2)%Z with false by lia. replace (predictor <? 10)%Z with false by lia.
  assert (B : forall v, (1 <= v < 2 ^ 32)%Z -> safe_convert uint32_t int64_t v = Ok v).
  { intros v Hv. unfold safe_convert. assert (I := in_range_spec uint32_t int64_t v ltac:(vm_compute; discriminate) ltac:(vm_compute; discriminate)).
    destruct I as [_ I]; [unfold rep, representable; cbn; lia|]. rewrite I.
    - f_equal. apply wrap_id; [vm_compute; discriminate|]. unfold rep, representable. cbn. lia.
    - split; [unfold rep, representable; cbn; lia|]. intros (A & _). discriminate. }
  assert (1 <= colors * columns)%Z by nia. assert (colors <= colors * columns <= colors * columns * bpc)%Z by nia.
  assert (columns <= colors * columns)%Z by nia. assert (bpc <= colors * columns * bpc)%Z by nia.
  assert (1 <= colors * bpc <= colors * columns * bpc)%Z by nia.
  rewrite !B by lia. cbn [rbind].
  assert (M : forall a b, (0 <= a < 2 ^ 32)%Z -> (0 <= b < 2 ^ 32)%Z -> (a * b < 2 ^ 32)%Z -> safe_multiply uint32_t uint32_t a b = Ok (a * b)%Z).
  { intros a b Ha Hb' Hab. rewrite mul_nonneg; [|vm_compute; discriminate|unfold rep, representable; cbn; lia|unfold rep, representable; cbn; lia|lia|lia].
    unfold tmax. cbn [uint32_t sgn bits]. change (Z.of_N 32) with 32%Z. replace (a * b <=? 2 ^ 32 - 1)%Z with true by lia. reflexivity. }
  rewrite (M colors bpc) by lia. cbn [rbind]. rewrite (M colors columns) by lia. cbn [rbind].
  rewrite (M (colors * columns)%Z bpc) by lia. cbn [rbind].
  assert (A := add_unsigned uint32_t int32_t (colors * columns * bpc) 7). cbv zeta in A.
  change (common uint32_t int32_t) with uint32_t in A.
  rewrite A; [|vm_compute; discriminate|vm_compute; discriminate|reflexivity|unfold rep, representable; cbn; lia|unfold rep, representable; cbn; lia|lia|lia].
  cbn [uint32_t sgn bits]. change (Z.of_N 32) with 32%Z. replace (colors * columns * bpc + 7 <? 2 ^ 32)%Z with true by lia. cbn [rbind]. reflexivity.
Qed.

(** rows filtered with None, Sub or Up (and, in images one pixel wide, with any filter) are restored, for every row List.length and
    number of rows, when a pixel is a whole number of bytes *)
Theorem C10_png_predictor_partial : forall predictor colors bpc columns rows,
  (10 <= predictor)%Z -> (1 <= colors)%Z -> (1 <= bpc)%Z -> (1 <= columns)%Z -> (colors * columns * bpc + 7 < 2 ^ 32)%Z ->
  ((colors * bpc) mod 8 = 0)%Z ->
  let bpp := Z.to_nat (colors * bpc / 8) in
  let row := Z.to_nat (colors * columns * bpc / 8) in
  Forall (fun r => (fst r <= 2 \/ (fst r <= 4 /\ columns = 1%Z)) /\ List.length (snd r) = row /\ all_bytes (snd r)) rows ->
  apply_predictor predictor colors bpc columns (png_filter_image bpp (repeat 0 row) rows) = Ok (List.concat (map snd rows)).
Proof.
  intros predictor colors bpc columns rows Hp Hc Hb Hl Hov H8 bpp row HF. rewrite predictor_ok by assumption.
  assert (E8 : (colors * bpc = 8 * (colors * bpc / 8))%Z) by (assert (Q := Z.div_mod (colors * bpc) 8 ltac:(lia)); lia).
  assert (P1 : (1 <= colors * bpc)%Z) by nia.
  assert (Er : ((colors * columns * bpc + 7) / 8 = colors * columns * bpc / 8)%Z).
  { replace (colors * columns * bpc)%Z with (columns * (colors * bpc))%Z by lia. rewrite E8.
    replace (columns * (8 * (colors * bpc / 8)))%Z with (columns * (colors * bpc / 8) * 8)%Z by lia.
    rewrite Z.div_mul by lia. rewrite Z.add_comm, Z.div_add by lia. reflexivity. }
  rewrite Er. fold bpp row.
  apply unfilter_image; [unfold bpp; lia|apply Forall_forall; intros x Hx; apply repeat_spec in Hx; subst x; unfold is_byte; lia| |lia].
  eapply Forall_impl; [|exact HF]. intros [f r] (A & B & C). cbn [fst snd] in *. split; [|split; assumption].
  destruct A as [A|[A E]]; [left; exact A|right]. split; [exact A|]. subst columns. unfold row, bpp.
  replace (colors * 1 * bpc)%Z with (colors * bpc)%Z by lia. reflexivity.
Qed.
(** Average and Paeth rows are decoded wrongly, even in the first two pixels *)
Theorem C10_average_refuted : exists rows, Forall (fun r => fst r = 3 /\ List.length (snd r) = 2%nat /\ all_bytes (snd r)) rows /\
  apply_predictor 15 1 8 2 (png_filter_image 1 [0; 0] rows) <> Ok (List.concat (map snd rows)).
Proof.
  exists [(3, [10; 20])]. split; [repeat constructor|]. vm_compute. discriminate.
Qed.
Theorem C10_paeth_refuted : exists rows, Forall (fun r => fst r = 4 /\ List.length (snd r) = 2%nat /\ all_bytes (snd r)) rows /\
  apply_predictor 15 1 8 2 (png_filter_image 1 [0; 0] rows) <> Ok (List.concat (map snd rows)).
Proof.
  exists [(4, [10; 20])]. split; [repeat constructor|]. vm_compute. discriminate.
Qed.
(** pixels smaller than a byte: the distance to the left neighbour is 1 byte in PNG, the code uses 0 *)
Theorem C10_small_pixel_refuted : exists raw, List.length raw = 2%nat /\ all_bytes raw /\
  apply_predictor 11 1 1 16 (png_filter_image 1 [0; 0] [(1, raw)]) <> Ok raw.
Proof. exists [1; 2]. split; [reflexivity|]. split; [repeat constructor|]. vm_compute. discriminate. Qed.
Theorem C10_unknown_filter_refuted : apply_predictor 15 1 8 2 [7; 10; 20] = Ok [10; 20].
Proof. vm_compute. reflexivity. Qed.
(** truncated data is refused *)
Theorem C10_truncated_refused : forall predictor colors bpc columns f t, (10 <= predictor)%Z -> (1 <= colors)%Z -> (1 <= bpc)%Z ->
  (1 <= columns)%Z -> (colors * columns * bpc + 7 < 2 ^ 32)%Z -> (List.length t < Z.to_nat ((colors * columns * bpc + 7) / 8))%nat ->
  apply_predictor predictor colors bpc columns (f :: t) = Throw EGeneral.
Proof.
  intros. rewrite predictor_ok by assumption. cbn [List.length unfilter].
  match goal with |- (if ?b then _ else _) = _ => replace b with true; [reflexivity|] end.
  symmetry. apply Nat.ltb_lt. assumption.
Qed.
Example C10_case : png_filter_image 3 (repeat 0 6) [(1, [1; 2; 3; 4; 5; 6]); (2, [9; 9; 9; 9; 9; 9]); (0, [7; 7; 7; 8; 8; 8])]
    = [1; 1; 2; 3; 3; 3; 3; 2; 8; 7; 6; 5; 4; 3; 0; 7; 7; 7; 8; 8; 8] /\
  apply_predictor 15 3 8 2 [1; 1; 2; 3; 3; 3; 3; 2; 8; 7; 6; 5; 4; 3; 0; 7; 7; 7; 8; 8; 8]
    = Ok [1; 2; 3; 4; 5; 6; 9; 9; 9; 9; 9; 9; 7; 7; 7; 8; 8; 8].
Proof. vm_compute. split; reflexivity. Qed.

Print Assumptions C08_ascii85_decodes_wrapping.
Print Assumptions C08_ascii85_decodes_by_length.
Print Assumptions C08_ascii85_decodes_partial.
Print Assumptions C08_ascii85_overflow_refuted.
Print Assumptions C08_every_string_has_text.
Print Assumptions C09_asciihex_partial.
Print Assumptions C09_odd_digit_refuted.
Print Assumptions C09_invalid_digit_refuted.
Print Assumptions C10_png_predictor_partial.
Print Assumptions C10_average_refuted.
Print Assumptions C10_paeth_refuted.
Print Assumptions C10_small_pixel_refuted.
Print Assumptions C10_unknown_filter_refuted.
Print Assumptions C10_truncated_refused.

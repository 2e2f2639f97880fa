(** C01-C05, C51, C52: objects survive writing and re-reading. *)
From Coq Require Import List NArith ZArith Bool Lia String Sorted.
From Verif.Model Require Import Base Char Numbers SMap Object Token Parser.
From Verif.Spec Require Import Strings Grammar.
From Verif.Proof Require Import Tac Numbers Strings SMap Token Parser Writer StreamObj.
Import ListNotations.
Local Open Scope N_scope.

(** C01 *)
Theorem C01_name_roundtrip : forall n rest, all_bytes n -> token_ends rest ->
  read_name (name_to_string n ++ rest) = Ok (n, rest).
Proof. exact name_roundtrip. Qed.
Theorem C01_name_encoded_roundtrip : forall n, all_bytes n -> name_create_from_encoded (name_to_string n) = Ok n.
Proof.
  intros n Hn. rewrite name_encoded_eq, <- (app_nil_r (name_to_string n)), name_roundtrip; [reflexivity|exact Hn|exact I].
Qed.
Theorem C01_name_text_is_regular : forall n, all_bytes n ->
  Forall (fun c => pdf_regular c /\ 33 <= c <= 126) (name_to_string n).
Proof. exact name_to_string_regular. Qed.
Theorem C01_name_text_standard : forall n, all_bytes n -> name_text (name_to_string n) n.
Proof. exact name_to_string_text. Qed.
Theorem C01_reads_every_standard_name : forall txt n rest, name_text txt n -> token_ends rest ->
  read_name (txt ++ rest) = Ok (n, rest).
Proof. intros txt n rest H. exact (read_name_text txt n H rest). Qed.
Example C01_case : read_name (name_to_string [65; 32; 35; 255; 47] ++ str "/B") = Ok ([65; 32; 35; 255; 47], str "/B").
Proof. vm_compute. reflexivity. Qed.

(** C02 *)
Theorem C02_literal_roundtrip : forall v rest, all_bytes v -> exists raw,
  read_token_skip parser_dictionary (literal_to_pdf v ++ rest) = Ok ((TyLit, raw), rest) /\ literal_decode raw = Ok v.
Proof.
  intros v rest Hv. exists (flat_map literal_char v). assert (H := literal_written_text v Hv). split.
  - exact (tok_lit parser_dictionary _ v rest H).
  - exact (literal_decode_of _ v H).
Qed.
Theorem C02_reads_every_standard_literal : forall txt v rest, literal_text 0 txt v ->
  read_token_skip parser_dictionary (40 :: txt ++ [41] ++ rest) = Ok ((TyLit, txt), rest) /\ literal_decode txt = Ok v.
Proof.
  intros txt v rest H. split; [|exact (literal_decode_of _ v H)].
  rewrite app_assoc. exact (tok_lit parser_dictionary txt v rest H).
Qed.
(** the standard turns a raw CR or CR LF inside a literal string into LF; the library keeps it *)
Theorem C02_raw_cr_refuted : exists txt, read_token_skip parser_dictionary (str "(" ++ txt ++ str ")") = Ok ((TyLit, txt), []) /\
  txt = [97; 13; 10; 98] /\ literal_decode txt = Ok [97; 13; 10; 98].
Proof. exists [97; 13; 10; 98]. vm_compute. auto. Qed.
Example C02_case : literal_text 0 [97; 40; 92; 51; 49; 53; 41; 92; 10; 92; 41] [97; 40; 205; 41; 41].
Proof.
  apply lt_plain; try lia. apply lt_open. apply (lt_octal3 1 51 49 53 3 1 5); try (split; lia); try lia.
  apply lt_close. apply lt_continue_lf. apply lt_escape; [cbn; tauto|]. constructor.
Qed.
Example C02_case2 : literal_to_pdf [10; 40; 200; 92; 0; 49] = [40; 92; 110; 92; 40; 92; 51; 49; 48; 92; 92; 92; 48; 48; 48; 49; 41].
Proof. vm_compute. reflexivity. Qed.

(** C03 *)
Theorem C03_hex_roundtrip : forall v rest, all_bytes v -> exists raw,
  read_token_skip parser_dictionary (hex_to_pdf v ++ rest) = Ok ((TyHex, raw), rest) /\ hex_decode raw = Ok v.
Proof. intros v rest Hv. exact (tok_hex parser_dictionary _ v rest (hex_written_text v Hv)). Qed.
Theorem C03_reads_every_standard_hex : forall txt v rest, hex_text txt v -> exists raw,
  read_token_skip parser_dictionary (60 :: (txt ++ [62]) ++ rest) = Ok ((TyHex, raw), rest) /\ hex_decode raw = Ok v.
Proof. intros txt v rest H. exact (tok_hex parser_dictionary txt v rest H). Qed.
Example C03_case : hex_text [52; 32; 49; 97] [65; 160].
Proof.
  apply (ht_pair 52 [32] 49 4 1 [97] [160]).
  - apply (hd_dec 4); lia.
  - repeat constructor; cbn; tauto.
  - apply (hd_dec 1); lia.
  - apply (ht_odd 97 [] 10); [apply (hd_lower 10); lia|constructor].
Qed.

(** C04 *)
Theorem C04_integer_roundtrip : forall z rest, (- 2 ^ 63 <= z < 2 ^ 63)%Z -> token_ends rest ->
  read_token_skip parser_dictionary (to_string_Z z ++ rest) = Ok ((TyInt, to_string_Z z), rest) /\ stoll (to_string_Z z) = Ok z.
Proof.
  intros z rest Hz Hr. split; [|apply stoll_to_string_Z; unfold int64_min, int64_max; lia].
  unfold to_string_Z. destruct (z <? 0)%Z.
  - exact (tok_int parser_dictionary [45] true _ rest st_minus (digits_nonempty _ _) (digits10_decimal _) Hr).
  - exact (tok_int parser_dictionary [] false _ rest st_none (digits_nonempty _ _) (digits10_decimal _) Hr).
Qed.
Theorem C04_decimal_digits : forall n, Forall decimal_digit (to_string_N n) /\ to_string_N n <> [] /\ decimal_value (to_string_N n) = n.
Proof. intros n. split; [apply digits10_decimal|]. split; [apply digits_nonempty|apply decimal_value_digits]. Qed.
(** unsigned integers above 2^63-1 can be set, are written, and cannot be read again *)
Theorem C04_unsigned_refuted : exists n, (0 < n < 2 ^ 64)%N /\
  read_token_skip parser_dictionary (to_string_N n) = Ok ((TyInt, to_string_N n), []) /\ stoll (to_string_N n) = Throw EStdRange.
Proof. exists (2 ^ 63). vm_compute. auto. Qed.
Example C04_case : to_string_Z (-9223372036854775808) = str "-9223372036854775808".
Proof. vm_compute. reflexivity. Qed.

(** C05: any direct object, at any nesting depth, whatever follows *)
Theorem C05_object_roundtrip : forall resolve o rest, writable o -> object_end rest ->
  parse_direct parser_dictionary resolve (to_pdf o ++ rest) = Ok (o, rest).
Proof. exact written_reads_back. Qed.
Theorem C05_written_text_standard : forall o, writable o -> object_text (to_pdf o) o.
Proof. exact to_pdf_text. Qed.
(** a real number read without digits after its point is written as an integer *)
Theorem C05_real_without_fraction_refuted : exists o, object_text (str "3.") o /\
  parse_direct parser_dictionary (fun _ _ => Throw EObjectMissing) (str "3.") = Ok (o, []) /\
  parse_direct parser_dictionary (fun _ _ => Throw EObjectMissing) (to_pdf o) = Ok (OInt 3, []) /\ o <> OInt 3.
Proof.
  exists (OReal false 3 0). split.
  - apply (ot_real [] false [51] []); [constructor|discriminate| |constructor]. constructor; [unfold decimal_digit; lia|constructor].
  - vm_compute. repeat split. discriminate.
Qed.
Example C05_case : let o := ODict [(str "A", OArr [OInt 1; ORef 2 0; OReal true 105 2; OLit [40]; OArr []]); (str "B", OName [])] in
  writable o /\ object_end ([10] ++ str "endobj") /\
  to_pdf o = str "<</A [1 2 0 R -1.05 (\() []] /B />>".
Proof.
  cbv zeta. split; [|split].
  - apply w_dict.
    + repeat (constructor; cbn; try (apply kl_less; cbn; lia)).
    + repeat constructor; cbn; try discriminate; unfold is_byte; lia.
    + cbn. repeat (constructor; cbn; unfold is_byte; try lia).
  - apply (oe_word [10] (str "endobj") []); [apply gap_white; [cbn; tauto|constructor]|discriminate|cbn; tauto|exact I].
  - vm_compute. reflexivity.
Qed.

(** C52: the parser reads every standard text, and always ends *)
Theorem C52_parser_reads_standard_text : forall resolve txt o rest, object_text txt o -> object_end rest ->
  parse_direct parser_dictionary resolve (txt ++ rest) = Ok (o, rest).
Proof. exact parse_text. Qed.
Theorem C52_parser_terminates : forall d resolve, (forall n g, resolve n g <> NoFuel) -> forall s, parse_direct d resolve s <> NoFuel.
Proof. exact parse_direct_total. Qed.
Example C52_case : let txt := str "<</A%c" ++ [10] ++ str "(x(y)z)/B<4 1>/A 7/C null>>" in
  parse_direct parser_dictionary (fun _ _ => Throw EObjectMissing) txt = Ok (ODict [(str "A", OLit (str "x(y)z")); (str "B", OHex [65])], []).
Proof. vm_compute. reflexivity. Qed.

(** C51: stream objects *)
Theorem C51_stream_roundtrip : forall resolve m data rest, writable (ODict m) ->
  In (str "Length", OInt (Z.of_nat (List.length data))) m -> token_ends rest ->
  parse_direct parser_dictionary resolve (to_pdf (OStream m data) ++ rest) = Ok (OStream m data, rest).
Proof.
  intros resolve m data rest Hw Hin Hr.
  apply (parse_stream_text (fun _ _ => None)); [discriminate|apply written_stream_text; assumption|exact Hr].
Qed.
Theorem C51_reads_standard_stream : forall len resolve txt o rest,
  (forall n g z, len n g = Some z -> resolve n g = Ok z) -> stream_text len txt o -> token_ends rest ->
  parse_direct parser_dictionary resolve (txt ++ rest) = Ok (o, rest).
Proof. exact parse_stream_text. Qed.
Example C51_case : to_pdf (OStream [(str "Length", OInt 10)] (str "endstream ")) = str "<</Length 10>>" ++ [10] ++ str "stream" ++ [10] ++ str "endstream endstream".
Proof. vm_compute. reflexivity. Qed.

Print Assumptions C01_name_roundtrip.
Print Assumptions C01_name_encoded_roundtrip.
Print Assumptions C01_name_text_is_regular.
Print Assumptions C01_name_text_standard.
Print Assumptions C01_reads_every_standard_name.
Print Assumptions C02_literal_roundtrip.
Print Assumptions C02_reads_every_standard_literal.
Print Assumptions C02_raw_cr_refuted.
Print Assumptions C03_hex_roundtrip.
Print Assumptions C03_reads_every_standard_hex.
Print Assumptions C04_integer_roundtrip.
Print Assumptions C04_decimal_digits.
Print Assumptions C04_unsigned_refuted.
Print Assumptions C05_object_roundtrip.
Print Assumptions C05_written_text_standard.
Print Assumptions C05_real_without_fraction_refuted.
Print Assumptions C52_parser_reads_standard_text.
Print Assumptions C52_parser_terminates.
Print Assumptions C51_stream_roundtrip.
Print Assumptions C51_reads_standard_stream.

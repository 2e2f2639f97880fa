(** C42: character maps. *)
From Coq Require Import List NArith ZArith Bool Lia String.
From Coq Require Import List.
From Verif.Model Require Import Base Char Object Token Parser Buffer Containers CharMap.
From Verif.Spec Require Import Arith Strings Grammar CharMap.
From Verif.Proof Require Import Tac Strings Equality CharMap.
Import ListNotations.
Local Open Scope N_scope.

(** A code in a range is mapped to the start of the destination plus its distance from the start of the range.  Missing: destinations of
    five and more bytes, codes of five and more bytes and sums that need more bytes than the destination has; see the refutations. *)
Theorem C42_range_partial : forall m key r v, good_map m -> all_bytes key -> in_space m key -> range_of m key r -> dest r = OHex v ->
  all_bytes v -> (List.length key <= 4)%nat -> (List.length v <= 4)%nat ->
  big_endian v + (big_endian key - big_endian (low r)) < 256 ^ N.of_nat (List.length v) ->
  exists w, mapped_value m key = Ok w /\ all_bytes w /\ List.length w = List.length v /\
            big_endian w = big_endian v + (big_endian key - big_endian (low r)).
Proof.
  intros m key r v Hg Hk Hs Hr Hd Hv L1 L2 Hsum. destruct (range_found m key r Hg Hk Hs Hr) as (E & Hi & Hl & Hh).
  destruct Hr as (b & a & _ & (B1 & B2 & B3 & B4) & _). exists (be_bytes (List.length v) (big_endian v + (big_endian key - big_endian (low r)))).
  split.
  - rewrite E. unfold range_value. rewrite Hi. cbn [negb]. rewrite Hd. rewrite difference_spec by assumption. cbn [rbind]. apply increment_spec; assumption.
  - apply be_bytes_spec. exact Hsum.
Qed.

(** A code in a range with an array of strings is mapped to the string at its distance from the start of the range. *)
Theorem C42_array : forall m key r vs x, good_map m -> all_bytes key -> in_space m key -> range_of m key r -> dest r = OArr (map OHex vs) ->
  (List.length key <= 4)%nat -> nth_error vs (N.to_nat (big_endian key - big_endian (low r))) = Some x ->
  mapped_value m key = Ok x.
Proof.
  intros m key r vs x Hg Hk Hs Hr Hd L1 Hx. destruct (range_found m key r Hg Hk Hs Hr) as (E & Hi & Hl & Hh).
  destruct Hr as (b & a & _ & (B1 & B2 & B3 & B4) & _). rewrite E. unfold range_value. rewrite Hi. cbn [negb]. rewrite Hd, hex_strings_map.
  rewrite difference_spec by assumption. cbn [rbind]. unfold arr_get, arr_size. assert (Hn : nth_error vs (N.to_nat (big_endian key - big_endian (low r))) <> None) by congruence.
  apply nth_error_Some in Hn.
  unfold bytes in *. rewrite (proj2 (N.ltb_lt _ _)) by lia. rewrite Hx. reflexivity.
Qed.

(** A single code outside all ranges is mapped to its destination, the first one that is given for it. *)
Theorem C42_char : forall m key before v after, good_map m -> all_bytes key -> in_space m key -> no_range m key ->
  chars m = before ++ (key, v) :: after -> ~ In key (map fst before) -> mapped_value m key = Ok v.
Proof.
  intros m key before v after Hg Hk Hs Hn Hc Hb. rewrite (no_range_found m key Hg Hk Hs Hn), Hc.
  rewrite (find_first (fun c => buffer_equals (fst c) key) before (key, v) after); [reflexivity| |apply buffer_equals_spec; reflexivity].
  intros y Hy. destruct (buffer_equals (fst y) key) eqn:E; [|reflexivity]. apply buffer_equals_spec in E. exfalso. apply Hb. rewrite <- E. apply in_map. exact Hy.
Qed.

(** Every other code is reported as unknown. *)
Theorem C42_unmapped : forall m key, good_map m -> all_bytes key -> ~ in_space m key \/ no_range m key /\ ~ In key (map fst (chars m)) ->
  mapped_value m key = Throw EGeneral.
Proof.
  intros m key Hg Hk H.
  assert (D : in_space m key \/ ~ in_space m key) by (destruct (in_codespace m key) eqn:E; [left|right]; rewrite <- (space_spec m key Hg Hk), E; congruence).
  destruct D as [D|D].
  - destruct H as [H|[Hn Hc]]; [contradiction|]. rewrite (no_range_found m key Hg Hk D Hn). rewrite find_none; [reflexivity|].
    intros y Hy. destruct (buffer_equals (fst y) key) eqn:E; [|reflexivity]. apply buffer_equals_spec in E. exfalso. apply Hc. rewrite <- E. apply in_map. exact Hy.
  - unfold mapped_value. rewrite <- (space_spec m key Hg Hk) in D. destruct (in_codespace m key); [congruence|reflexivity].
Qed.

(** Every text of a character map is read as the map it denotes. *)
Theorem C42_text : forall rl txt m, cmap_text txt m -> read_cmap rl txt = Ok m.
Proof.
  intros rl txt m H. unfold read_cmap. rewrite (cmap_read rl txt m H) by lia. unfold plus, empty_map. destruct m. reflexivity.
Qed.

(** From the text of the map to the code. *)
Theorem C42_text_range_partial : forall rl txt m, cmap_text txt m -> good_map m -> forall key r v, all_bytes key -> in_space m key -> range_of m key r ->
  dest r = OHex v -> all_bytes v -> (List.length key <= 4)%nat -> (List.length v <= 4)%nat ->
  big_endian v + (big_endian key - big_endian (low r)) < 256 ^ N.of_nat (List.length v) ->
  exists w, (do m' <- read_cmap rl txt;; mapped_value m' key) = Ok w /\ List.length w = List.length v /\
            big_endian w = big_endian v + (big_endian key - big_endian (low r)).
Proof.
  intros rl txt m Ht Hg key r v Hk Hs Hr Hd Hv L1 L2 Hsum. destruct (C42_range_partial m key r v Hg Hk Hs Hr Hd Hv L1 L2 Hsum) as (w & E & _ & Hw).
  exists w. rewrite (C42_text rl txt m Ht). cbn [rbind]. split; [exact E|exact Hw].
Qed.

(** Reading any bytes as a character map ends. *)
Theorem C42_always_ends : forall rl, (forall n g, rl n g <> NoFuel) -> forall txt, read_cmap rl txt <> NoFuel.
Proof. intros rl H txt. unfold read_cmap. apply read_cmap_nofuel; [exact H|lia]. Qed.

(** ** refutations *)
(** A destination of five or more bytes (a ligature written with three UTF-16 units) is undefined behaviour, for every code of the range. *)
Theorem C42_long_destination_refuted : forall m key r v, good_map m -> all_bytes key -> in_space m key -> range_of m key r -> dest r = OHex v ->
  (List.length key <= 4)%nat -> (4 < List.length v)%nat -> mapped_value m key = Undef.
Proof.
  intros m key r v Hg Hk Hs Hr Hd L1 L2. destruct (range_found m key r Hg Hk Hs Hr) as (E & Hi & Hl & Hh).
  destruct Hr as (b & a & _ & (B1 & B2 & B3 & B4) & _). rewrite E. unfold range_value. rewrite Hi. cbn [negb]. rewrite Hd.
  rewrite difference_spec by assumption. cbn [rbind]. unfold increment. rewrite increment_long; [reflexivity|rewrite rev_length; lia|lia].
Qed.
(** The codes 00 and 01 mapped from 00FF 00FF 00FF on: the second would be 00FF 00FF 0100. *)
Definition ligatures : char_map :=
  {| codespace := [([0], [255])]; ranges := [{| low := [0]; high := [1]; dest := OHex [0; 102; 0; 102; 0; 105] |}]; chars := [] |}.
Lemma ligatures_good : good_map ligatures.
Proof. split; repeat constructor. Qed.
Example C42_long_destination_case : in_space ligatures [0] /\ range_of ligatures [0] {| low := [0]; high := [1]; dest := OHex [0; 102; 0; 102; 0; 105] |}.
Proof.
  split.
  - exists ([0], [255]). split; [left; reflexivity|]. repeat split; vm_compute; discriminate.
  - exists [], []. split; [reflexivity|]. split; [|constructor]. repeat split; vm_compute; discriminate.
Qed.

(** Two carries that leave the destination: FF plus 1 fails instead of giving 0100 (or being refused when the map is read), and an
    empty destination plus 5 gives four bytes. *)
Definition one_byte (v : bytes) : char_map := {| codespace := [([0], [255])]; ranges := [{| low := [0]; high := [255]; dest := OHex v |}]; chars := [] |}.
Theorem C42_carry_refuted : mapped_value (one_byte [255]) [0] = Ok [255] /\ mapped_value (one_byte [255]) [1] = Throw EConversion /\
  mapped_value (one_byte []) [5] = Ok [5; 5; 5; 5].
Proof. vm_compute. auto. Qed.

(** Every range that runs over the end of its destination's bytes: the code fails, although the map says what it stands for; and when the
    carry is a multiple of twelve, the code silently gets a destination that another code has already, the sum without the carry. *)
Theorem C42_overflow_refuted : forall m key r v, good_map m -> all_bytes key -> in_space m key -> range_of m key r -> dest r = OHex v ->
  all_bytes v -> (List.length key <= 4)%nat -> (1 <= List.length v <= 3)%nat ->
  let sum := big_endian v + (big_endian key - big_endian (low r)) in
  let carry := sum / 256 ^ N.of_nat (List.length v) in
  sum < 2 ^ 32 -> 0 < carry ->
  (carry mod 3 <> 0 -> mapped_value m key = Throw EConversion) /\
  (carry mod 12 = 0 -> mapped_value m key = Ok (be_bytes (List.length v) sum)).
Proof.
  intros m key r v Hg Hk Hs Hr Hd Hv L1 L2 sum carry Hsum Hcar. destruct (range_found m key r Hg Hk Hs Hr) as (E & Hi & Hl & Hh).
  destruct Hr as (b & a & _ & (B1 & B2 & B3 & B4) & _). rewrite E. unfold range_value. rewrite Hi. cbn [negb]. rewrite Hd.
  rewrite difference_spec by assumption. cbn [rbind]. apply increment_over; assumption.
Qed.
Example C42_overflow_case : let m := {| codespace := [([0; 0], [255; 255])]; ranges := [{| low := [0; 0]; high := [255; 255]; dest := OHex [65] |}]; chars := [] |} in
  good_map m /\ in_space m [12; 7] /\ range_of m [12; 7] {| low := [0; 0]; high := [255; 255]; dest := OHex [65] |} /\
  mapped_value m [0; 7] = Ok [72] /\ mapped_value m [1; 7] = Throw EConversion /\ mapped_value m [12; 7] = Ok [72].
Proof.
  cbv zeta. split; [split; repeat constructor|]. split; [exists ([0; 0], [255; 255]); split; [left; reflexivity|]; repeat split; vm_compute; discriminate|].
  split; [exists [], []; split; [reflexivity|]; split; [|constructor]; repeat split; vm_compute; discriminate|]. vm_compute. auto.
Qed.

(** Codes of five bytes: undefined behaviour. *)
Theorem C42_long_code_refuted :
  mapped_value {| codespace := [([0; 0; 0; 0; 0], [255; 255; 255; 255; 255])];
                  ranges := [{| low := [0; 0; 0; 0; 0]; high := [0; 0; 0; 0; 9]; dest := OHex [0; 65] |}]; chars := [] |} [0; 0; 0; 0; 1] = Undef.
Proof. vm_compute. reflexivity. Qed.

(** ** cases *)
Definition unicode : char_map :=
  {| codespace := [([0; 0], [255; 255])];
     ranges := [{| low := [0; 16]; high := [1; 15]; dest := OHex [3; 248] |};
                {| low := [2; 0]; high := [2; 1]; dest := OArr [OHex [0; 102; 0; 105]; OHex [0; 102; 0; 108]] |}];
     chars := [([0; 3], [0; 32]); ([0; 4], [216; 53; 220; 0])] |}.
Lemma unicode_good : good_map unicode.
Proof. split; repeat constructor. Qed.
Lemma unicode_space : forall a b, a < 256 -> b < 256 -> in_space unicode [a; b].
Proof.
  intros a b Ha Hb. exists ([0; 0], [255; 255]). split; [left; reflexivity|]. split; [reflexivity|]. split; [reflexivity|].
  cbn [fst snd big_endian List.length]. change (256 ^ N.of_nat 1) with 256. change (256 ^ N.of_nat 0) with 1. lia.
Qed.
(** 0x0110 lies 0x100 after 0x10, so that it is mapped to 0x03F8 + 0x100; a carry on the way *)
Example C42_range_case : range_of unicode [1; 15] {| low := [0; 16]; high := [1; 15]; dest := OHex [3; 248] |} /\
  mapped_value unicode [1; 15] = Ok [4; 247] /\ mapped_value unicode [0; 24] = Ok [4; 0].
Proof.
  split; [|split; vm_compute; reflexivity]. exists []. eexists. split; [reflexivity|]. split; [|constructor]. repeat split; vm_compute; discriminate.
Qed.
Example C42_array_case : mapped_value unicode [2; 1] = Ok [0; 102; 0; 108].
Proof.
  apply (C42_array unicode [2; 1] {| low := [2; 0]; high := [2; 1]; dest := OArr (map OHex [[0; 102; 0; 105]; [0; 102; 0; 108]]) |} [[0; 102; 0; 105]; [0; 102; 0; 108]]).
  - exact unicode_good.
  - repeat constructor.
  - apply unicode_space; lia.
  - exists [{| low := [0; 16]; high := [1; 15]; dest := OHex [3; 248] |}], []. split; [reflexivity|]. split; [repeat split; vm_compute; discriminate|].
    apply Forall_cons; [|constructor]. intros (_ & _ & H & H2). vm_compute in H2. apply H2. reflexivity.
  - reflexivity.
  - cbn. lia.
  - reflexivity.
Qed.
Example C42_char_case : mapped_value unicode [0; 4] = Ok [216; 53; 220; 0] /\ mapped_value unicode [0; 5] = Throw EGeneral /\ mapped_value unicode [4] = Throw EGeneral.
Proof. vm_compute. auto. Qed.

(** A ToUnicode map as fonts have it (with the names in the form this reader accepts). *)
Definition no_length : N -> N -> res Z := fun _ _ => Throw EGeneral.
Definition unicode_text : bytes := str "/CIDInit /ProcSet findresource begin
12 dict begin
begincmap
/CIDSystemInfo << /Registry (Adobe) /Ordering (UCS) /Supplement 0 >> def
/CMapName /Adobe-Identity-UCS def
/CMapType 2 def
1 begincodespacerange
<0000> <FFFF>
endcodespacerange
2 beginbfrange
<0010> <010F> <03F8>
<0200> <0201> [<00660069> <0066006C>]
endbfrange
2 beginbfchar
<0003> <0020>
<0004> <D835DC00>
endbfchar
endcmap
CMapName currentdict /CMap defineresource pop
end
end
".
Example C42_text_case : read_cmap no_length unicode_text = Ok unicode.
Proof. vm_compute. reflexivity. Qed.

(** A text that meets the hypotheses of [C42_text]. *)
Lemma white_gap : forall g, Forall (fun c => In c pdf_white) g -> gap g.
Proof. intros g H. induction H; constructor; assumption. Qed.
Lemma a_word : forall w, forallb is_regular w = true -> match w with [] => False | c :: _ => ~ (48 <= c <= 57) /\ ~ In c [43; 45; 46] end -> word w.
Proof. intros w H H2. split; [|exact H2]. apply Forall_forall. intros c Hc. apply is_regular_spec. rewrite forallb_forall in H. auto. Qed.
Lemma a_byte : forall h l x y, hex_digit h x -> hex_digit l y -> hex_text [h; l] [16 * x + y].
Proof. intros h l x y Hh Hl. apply (ht_pair h [] l x y []); [assumption|constructor|assumption|constructor]. Qed.
Ltac a_gap := apply white_gap; repeat (apply Forall_cons; [vm_compute; tauto|]); apply Forall_nil.
Example C42_text_meets : cmap_text (str "begincmap 1 beginbfrange <10> <2F> <80> endbfrange
endcmap")
  {| codespace := []; ranges := [{| low := [16]; high := [47]; dest := OHex [128] |}]; chars := [] |}.
Proof.
  apply (ct_word [] (str "begincmap")); [constructor|apply a_word; [reflexivity|vm_compute; intuition discriminate]|left; vm_compute; tauto|].
  apply (ct_ranges [32] (str "1") [32] (str " <10> <2F> <80> ") [{| low := [16]; high := [47]; dest := OHex [128] |}] (10 :: str "endcmap") [] [] []).
  - a_gap.
  - split; [discriminate|]. split; [|reflexivity]. constructor; [split; vm_compute; discriminate|constructor].
  - reflexivity.
  - a_gap.
  - discriminate.
  - apply (rt_cons [32] (str "10") [16] [32] (str "2F") [47] [32] (str "<80>") (OHex [128]) [32] []).
    + a_gap.
    + apply (a_byte 49 48 1 0); [apply (hd_dec 1); lia|apply (hd_dec 0); lia].
    + a_gap.
    + apply (a_byte 50 70 2 15); [apply (hd_dec 2); lia|apply (hd_upper 15); lia].
    + a_gap.
    + apply (ot_hex (str "80") [128]). apply (a_byte 56 48 8 0); [apply (hd_dec 8); lia|apply (hd_dec 0); lia].
    + constructor.
    + constructor. a_gap.
  - left. vm_compute. tauto.
  - discriminate.
  - left. vm_compute. tauto.
  - apply (ct_word [10] (str "endcmap") []); [a_gap|apply a_word; [reflexivity|vm_compute; intuition discriminate]|exact I|]. apply ct_end. constructor.
Qed.

Print Assumptions C42_range_partial.
Print Assumptions C42_array.
Print Assumptions C42_char.
Print Assumptions C42_unmapped.
Print Assumptions C42_text.
Print Assumptions C42_text_range_partial.
Print Assumptions C42_always_ends.
Print Assumptions C42_long_destination_refuted.
Print Assumptions C42_carry_refuted.
Print Assumptions C42_overflow_refuted.
Print Assumptions C42_long_code_refuted.

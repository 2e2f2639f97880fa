(** Reading files that follow the standard. *)
From Coq Require Import List NArith ZArith Bool Lia String.
From Coq Require Import List.
From Verif.Model Require Import Base Char Numbers SMap Object Token Parser Arith Lines Xref StartXref Header FileWrite Chain Rebuild Conforming.
From Verif.Spec Require Import Strings Grammar Chain Conforming.
From Verif.Proof Require Import Tac Numbers Strings SMap Token Parser Writer StreamObj Arith Xref StartXref FileWrite.
From Verif.Proof Require Chain Update.
Import ListNotations.
Local Open Scope N_scope.

(** ** small pieces *)
Lemma expect_int : forall d g ds n rest, gap g -> number_text ds n -> token_ends rest ->
  expect_skip d TyInt (g ++ ds ++ rest) = Ok (ds, rest).
Proof.
  intros d g ds n rest Hg (Hne & Hd & _) Hr. unfold expect_skip. rewrite skip_gap by exact Hg.
  assert (E := tok_int d [] false ds rest st_none Hne Hd Hr). cbn [app] in E. rewrite E. reflexivity.
Qed.
Lemma number_stoll : forall ds n, number_text ds n -> n < 2 ^ 63 -> stoll ds = Ok (Z.of_N n).
Proof. intros ds n (Hne & Hd & <-) Hn. apply sign_signed; assumption. Qed.
Lemma number_stoull : forall ds n, number_text ds n -> n < 2 ^ 64 -> stoull ds = Ok n.
Proof.
  intros ds n (Hne & Hd & <-) Hn. assert (E := strtol_decimal [] false _ st_none Hne Hd). cbn [app signed] in E. unfold stoull. rewrite E.
  change (2 ^ 64) with 18446744073709551616 in Hn. change (2 ^ 64)%Z with 18446744073709551616%Z.
  replace (Z.abs (Z.of_N (decimal_value ds)) <=? 18446744073709551616 - 1)%Z with true by lia.
  rewrite Z.mod_small by lia. rewrite N2Z.id. reflexivity.
Qed.
Lemma decimal_bound : forall ds, Forall decimal_digit ds -> decimal_value ds < 10 ^ N.of_nat (List.length ds).
Proof.
  assert (H : forall ds a, Forall decimal_digit ds -> fold_left (fun a c => 10 * a + (c - 48)) ds a < (a + 1) * 10 ^ N.of_nat (List.length ds)).
  { induction ds as [|c ds IH]; intros a H; cbn [fold_left List.length]; [change (10 ^ N.of_nat 0) with 1; lia|].
    inversion H as [|? ? Hc Hd]; subst. unfold decimal_digit in Hc. specialize (IH (10 * a + (c - 48)) Hd).
    rewrite Nat2N.inj_succ, N.pow_succ_r'. nia. }
  intros ds Hd. specialize (H ds 0 Hd). unfold decimal_value. lia.
Qed.
Lemma ten_digits : forall ds n, number_text ds n -> List.length ds = 10%nat -> n < 2 ^ 63.
Proof.
  intros ds n (_ & Hd & <-) Hl. assert (H := decimal_bound ds Hd). rewrite Hl in H. change (10 ^ N.of_nat 10) with 10000000000 in H.
  change (2 ^ 63) with 9223372036854775808. lia.
Qed.
Lemma line_end_gap : forall e, line_end e -> gap e /\ e <> [].
Proof.
  intros e [<-|[<-|[<-|[]]]]; (split; [|discriminate]); repeat (apply gap_white; [cbn; tauto|]); constructor.
Qed.
Lemma line_end_token : forall e rest, line_end e -> token_ends (e ++ rest).
Proof. intros e rest [<-|[<-|[<-|[]]]]; left; cbn; tauto. Qed.
Lemma row_end_gap : forall e, In e [[32; 13]; [32; 10]; [13; 10]] -> gap e.
Proof. intros e [<-|[<-|[<-|[]]]]; repeat (apply gap_white; [cbn; tauto|]); constructor. Qed.
Lemma row_end_token : forall e rest, In e [[32; 13]; [32; 10]; [13; 10]] -> token_ends (e ++ rest).
Proof. intros e rest [<-|[<-|[<-|[]]]]; left; cbn; tauto. Qed.

(** ** rows *)
Definition entry (n : N) (r : row) : xentry :=
  match r with
  | InUse offset g => {| xnum := n; xgen := g; xdata := KUsed (Z.of_N offset) true |}
  | Free g => {| xnum := n; xgen := g; xdata := KFree 0 |}
  end.
Lemma entry_num : forall n r, xnum (entry n r) = n. Proof. intros n []; reflexivity. Qed.
Lemma entry_gen : forall n r, xgen (entry n r) = generation r. Proof. intros n []; reflexivity. Qed.
Definition add_rows (l : list (N * row)) (t : list xentry) : list xentry := fold_left (fun t p => xadd (entry (fst p) (snd p)) t) l t.

Lemma row_read_any : forall txt r num g rest, row_text txt r -> gap g ->
  exists e, gap e /\ read_table_entry parser_dictionary num (g ++ txt ++ rest) = Ok (entry num r, e ++ rest).
Proof.
  intros txt r num g rest (d10 & d5 & letter & e & a & gn & -> & L10 & N10 & L5 & N5 & Hgn & He & Hr) Hg.
  exists e. split; [apply row_end_gap; exact He|]. unfold read_table_entry. rewrite <- !app_assoc.
  rewrite (expect_int _ g d10 a) by (auto; left; exact white32). cbn [rbind].
  rewrite (expect_int _ [32] d5 gn) by (auto using gap32; left; exact white32). cbn [rbind].
  rewrite (number_stoll d10 a N10 (ten_digits _ _ N10 L10)). cbn [rbind].
  rewrite (number_stoll d5 gn N5) by (change (2 ^ 63) with 9223372036854775808; lia). cbn [rbind].
  replace (65535 <? Z.of_N gn)%Z with false by lia.
  assert (Hto : to_u16 (Z.of_N gn) = Ok gn).
  { unfold to_u16. replace (Z.of_N gn <? 0)%Z with false by lia. replace (Z.of_N gn <=? 65535)%Z with true by lia. rewrite N2Z.id. reflexivity. }
  assert (Hlet : letter = 110 \/ letter = 102) by (destruct r; destruct Hr; auto).
  rewrite (skip_gap _ [32]) by exact gap32.
  assert (Ed : parser_dictionary [letter] = TyUnknown) by (destruct Hlet; subst; reflexivity).
  rewrite tok_word; [rewrite Ed| | |apply row_end_token; exact He|rewrite Ed; discriminate]; [|destruct Hlet; subst; reflexivity..].
  cbn [rbind snd]. destruct r as [offset gen|gen].
  - destruct Hr as (-> & -> & ->). change (bytes_eqb [110] (str "n")) with true. cbv iota. rewrite Hto. reflexivity.
  - destruct Hr as (-> & ->). change (bytes_eqb [102] (str "n")) with false. change (bytes_eqb [102] (str "f")) with true. cbv iota. rewrite Hto. reflexivity.
Qed.

Fixpoint numbered (n : N) (rows : list row) : list (N * row) :=
  match rows with [] => [] | r :: t => (n, r) :: numbered (n + 1) t end.
Lemma numbered_combine : forall rows first k,
  combine (map (fun i => first + N.of_nat i) (seq k (List.length rows))) rows = numbered (first + N.of_nat k) rows.
Proof.
  induction rows as [|r rows IH]; intros first k; [reflexivity|]. cbn [List.length seq map combine numbered]. rewrite IH.
  replace (first + N.of_nat k + 1) with (first + N.of_nat (S k)) by lia. reflexivity.
Qed.

Lemma rows_read_any : forall texts rows, Forall2 row_text texts rows -> forall fuel base i g rest acc, (List.length rows <= fuel)%nat ->
  gap g -> base + i + N.of_nat (List.length rows) <= 2 ^ 63 ->
  exists g', gap g' /\ read_rows parser_dictionary fuel base i (i + N.of_nat (List.length rows)) (g ++ concat texts ++ rest) acc =
    Ok (add_rows (numbered (base + i) rows) acc, g' ++ rest).
Proof.
  intros texts rows H. induction H as [|txt r texts rows Hr H IH]; intros fuel base i g rest acc Hf Hg Hb.
  - exists g. split; [exact Hg|]. cbn [concat app List.length numbered add_rows fold_left].
    destruct fuel; cbn [read_rows]; replace (i + N.of_nat 0 <=? i) with true by lia; reflexivity.
  - destruct fuel as [|fuel]; cbn [List.length] in *; [lia|]. cbn [read_rows].
    replace (i + N.of_nat (S (List.length rows)) <=? i) with false by lia.
    rewrite add_u64_ok by (change (2 ^ 63) with 9223372036854775808 in Hb; change (2 ^ 64) with 18446744073709551616; lia).
    cbn [rbind concat]. rewrite <- app_assoc. destruct (row_read_any txt r (base + i) g (concat texts ++ rest) Hr Hg) as (e & He & E).
    rewrite E. cbn [rbind].
    assert (Ea : table_add (entry (base + i) r) acc = Ok (xadd (entry (base + i) r) acc)) by (destruct r; reflexivity).
    rewrite Ea. cbn [rbind].
    destruct (IH fuel base (i + 1) e rest (xadd (entry (base + i) r) acc)) as (g' & Hg' & E'); [lia|exact He|lia|].
    exists g'. split; [exact Hg'|]. replace (i + N.of_nat (S (List.length rows))) with (i + 1 + N.of_nat (List.length rows)) by lia.
    rewrite E'. cbn [numbered add_rows fold_left fst snd]. replace (base + (i + 1)) with (base + i + 1) by lia. reflexivity.
Qed.

Lemma row_text_nonempty : forall txt r, row_text txt r -> (1 <= List.length txt)%nat.
Proof. intros txt r (d10 & d5 & letter & e & a & g & -> & L & _). rewrite app_length, L. lia. Qed.
Lemma rows_nonempty : forall texts rows, Forall2 row_text texts rows -> (List.length rows <= List.length (concat texts))%nat.
Proof.
  intros texts rows H. induction H as [|txt r texts rows Hr H IH]; [cbn; lia|]. cbn [concat List.length]. rewrite app_length.
  apply row_text_nonempty in Hr. lia.
Qed.

(** ** subsections *)
Lemma number_nonempty : forall ds n, number_text ds n -> (1 <= List.length ds)%nat.
Proof. intros [|c ds] n (H & _); [congruence|cbn; lia]. Qed.

Lemma subsections_read_any : forall subs lists, Forall2 subsection_text subs lists -> forall fuel g rest acc, (List.length subs < fuel)%nat ->
  gap g -> token_ends rest ->
  exists g', gap g' /\ read_subsections parser_dictionary fuel (g ++ concat subs ++ str "trailer" ++ rest) acc =
    Ok (add_rows (concat lists) acc, g' ++ str "trailer" ++ rest).
Proof.
  intros subs lists H. induction H as [|txt l subs lists Hs H IH]; intros fuel g rest acc Hf Hg Hr.
  - exists g. split; [exact Hg|]. destruct fuel as [|fuel]; [cbn in Hf; lia|]. cbn [concat app read_subsections].
    unfold peek_type_skip. rewrite skip_gap by exact Hg. rewrite tok_keyword by (cbn; tauto || exact Hr). cbn [rbind fst].
    change (ttype_eqb (parser_dictionary (str "trailer")) TyTrailer) with true. reflexivity.
  - destruct fuel as [|fuel]; [cbn in Hf; lia|]. cbn [List.length] in Hf. cbn [concat read_subsections].
    destruct Hs as [first_ds first count_ds e texts rows Nf Nc He Hrows Hb]. rewrite numbered_combine. change (N.of_nat 0) with 0.
    rewrite N.add_0_r. rewrite <- !app_assoc. unfold peek_type_skip. rewrite skip_gap by exact Hg.
    destruct Nf as (Nf1 & Nf2 & Nf3).
    assert (Etok := tok_int parser_dictionary [] false first_ds ([32] ++ count_ds ++ e ++ concat texts ++ concat subs ++ str "trailer" ++ rest)
      st_none Nf1 Nf2 (or_introl white32)). cbn [app] in Etok. cbn [app]. rewrite Etok. cbn [rbind fst ttype_eqb].
    assert (Nf : number_text first_ds first) by (repeat split; assumption).
    assert (E1 := expect_int parser_dictionary g first_ds first (32 :: count_ds ++ e ++ concat texts ++ concat subs ++ str "trailer" ++ rest) Hg Nf (or_introl white32)).
    rewrite E1. cbn [rbind].
    assert (E2 := expect_int parser_dictionary [32] count_ds _ (e ++ concat texts ++ concat subs ++ str "trailer" ++ rest) gap32 Nc (line_end_token _ _ He)).
    cbn [app] in E2. rewrite E2. cbn [rbind].
    rewrite (number_stoull first_ds first Nf) by (change (2 ^ 63) with 9223372036854775808 in Hb; change (2 ^ 64) with 18446744073709551616; lia).
    rewrite (number_stoull count_ds _ Nc) by (change (2 ^ 63) with 9223372036854775808 in Hb; change (2 ^ 64) with 18446744073709551616; lia).
    cbn [rbind].
    destruct (rows_read_any texts rows Hrows (S (List.length (e ++ concat texts ++ concat subs ++ str "trailer" ++ rest))) first 0 e
      (concat subs ++ str "trailer" ++ rest) acc) as (g1 & Hg1 & E3).
    + assert (Hl := rows_nonempty texts rows Hrows). rewrite !app_length. lia.
    + apply line_end_gap; exact He.
    + rewrite N.add_0_r. exact Hb.
    + rewrite N.add_0_l in E3. rewrite E3. cbn [rbind]. rewrite N.add_0_r.
      destruct (IH fuel g1 rest (add_rows (numbered first rows) acc)) as (g2 & Hg2 & E4); [lia|exact Hg1|exact Hr|].
      exists g2. split; [exact Hg2|]. rewrite E4. unfold add_rows. rewrite fold_left_app. reflexivity.
Qed.

Lemma subsections_nonempty : forall subs lists, Forall2 subsection_text subs lists -> (List.length subs <= List.length (concat subs))%nat.
Proof.
  intros subs lists H. induction H as [|txt l subs lists Hs H IH]; [cbn; lia|]. cbn [concat List.length]. rewrite app_length.
  destruct Hs as [first_ds first count_ds e texts rows Nf _ _ _ _]. apply number_nonempty in Nf. rewrite app_length. lia.
Qed.

(** ** an object in front of a keyword *)
Lemma look_word : forall w rest, In w following_keywords -> token_ends rest -> look_ok (w ++ rest).
Proof.
  intros w rest Hw Hr. do 2 eexists. split; [apply tok_keyword; [|exact Hr]|].
  - cbn in Hw |- *. tauto.
  - cbn in Hw. repeat (destruct Hw as [<-|Hw]; [cbn; repeat split; discriminate|]). destruct Hw.
Qed.
Lemma parse_before_word : forall rl g txt o g2 w rest, gap g -> object_text txt o -> gap g2 -> (self_delimited o = false -> g2 <> []) ->
  In w following_keywords -> token_ends rest ->
  parse_direct parser_dictionary rl (g ++ txt ++ g2 ++ w ++ rest) = Ok (o, g2 ++ w ++ rest).
Proof.
  intros rl g txt o g2 w rest Hg Ho Hg2 Hd Hw Hr. apply parse_gap; [exact Hg|]. unfold parse_direct.
  apply (proj1 (reads_text rl)); [exact Ho|rewrite app_length; lia|]. split.
  - intros Hs. apply gap_token_ends; auto.
  - apply look_gap; [exact Hg2|]. apply look_word; assumption.
Qed.

(** ** a section *)
Definition table_of (r : revision) : section :=
  {| s_kind := STable; s_entries := add_rows (r_rows r) []; s_hybrid := None; s_trailer := r_trailer r |}.

Lemma position_exact : forall before s, s <> [] -> at_position (before ++ s) (Z.of_N (N.of_nat (List.length before))) = s.
Proof.
  intros before s Hs. unfold at_position. rewrite nat_N_Z. rewrite app_length.
  assert (L : (0 < List.length s)%nat) by (destruct s; [congruence|cbn; lia]).
  replace (Z.of_nat (List.length before) <? 0)%Z with false by lia.
  replace (Z.of_nat (List.length before + List.length s) <=? Z.of_nat (List.length before))%Z with false by lia. cbn [orb].
  rewrite Nat2Z.id. apply skipn_exact.
Qed.

Lemma section_read : forall decode file offset text r g more c,
  stands_at file offset text (g ++ str "startxref" ++ more) -> section_text text r -> gap g -> token_ends more ->
  read_section parser_dictionary decode file c (Z.of_N offset) = Ok (c, table_of r).
Proof.
  intros decode file offset text r g more c (before & -> & <-) Hs Hg Hm. destruct Hs as [e subs lists g1 dict m He Hsubs Hnd Hg1 Hdict].
  unfold read_section. rewrite position_exact.
  2: { change (str "xref") with (120 :: str "ref"). discriminate. }
  rewrite <- !app_assoc. unfold peek_type_skip.
  rewrite tok_keyword by (first [apply line_end_token; exact He|cbn; tauto]). cbn [rbind fst].
  change (ttype_eqb (parser_dictionary (str "xref")) TyXref) with true. cbv iota.
  unfold read_xref_table. unfold expect_skip at 1.
  rewrite tok_keyword by (first [apply line_end_token; exact He|cbn; tauto]). cbn [rbind fst snd].
  change (ttype_eqb (parser_dictionary (str "xref")) TyXref) with true. cbv iota. cbn [rbind].
  assert (Hte : token_ends (g1 ++ dict ++ g ++ str "startxref" ++ more)).
  { inversion Hdict as [| | | | | | | | | |t es m' He' Hc]; subst.
    destruct Hg1; cbn [app]; unfold token_ends; [right; cbn; tauto|left; assumption|right; cbn; tauto]. }
  destruct (subsections_read_any subs lists Hsubs (S (List.length (e ++ concat subs ++ str "trailer" ++ g1 ++ dict ++ g ++ str "startxref" ++ more))) e
    (g1 ++ dict ++ g ++ str "startxref" ++ more) []) as (g2 & Hg2 & E2).
  - assert (Hl := subsections_nonempty _ _ Hsubs). rewrite !app_length. lia.
  - apply line_end_gap; exact He.
  - exact Hte.
  - rewrite E2. cbn [rbind]. unfold expect_skip at 1. rewrite skip_gap by exact Hg2.
    rewrite tok_keyword by (first [exact Hte|cbn; tauto]). cbn [rbind fst snd].
    change (ttype_eqb (parser_dictionary (str "trailer")) TyTrailer) with true. cbv iota. cbn [rbind].
    rewrite (parse_before_word _ g1 dict (ODict m) g (str "startxref") more) by (first [assumption|discriminate|cbn; tauto]).
    reflexivity.
Qed.

Lemma text_map : forall txt m, object_text txt (ODict m) -> sm_sorted m /\ sm_keys_ok m.
Proof.
  intros txt m H. inversion H as [| | | | | | | | | |t es m' He Hc]; subst. exact (collect_facts es m (collect_keys t es He) Hc).
Qed.
Lemma section_map : forall text r, section_text text r -> sm_sorted (r_trailer r) /\ sm_keys_ok (r_trailer r).
Proof. intros text r [e subs lists g dict m _ _ _ _ Hd]. exact (text_map dict m Hd). Qed.
Lemma absent_find : forall k (m : list (bytes * obj)), sm_sorted m -> sm_keys_ok m -> all_bytes k -> (forall v, ~ In (k, v) m) -> sm_find k m = None.
Proof.
  intros k m Hs Hk Hb Hn. destruct (sm_find k m) as [v|] eqn:E; [|reflexivity]. exfalso. apply (Hn v).
  apply sm_find_in; assumption.
Qed.

(** ** the chain *)
Lemma sections_read : forall decode file offset revs, revisions file offset revs ->
  forall fuel acc, (List.length revs <= fuel)%nat ->
  read_sections parser_dictionary decode fuel file acc (Z.of_N offset) = Ok (acc ++ map table_of revs).
Proof.
  intros decode file offset revs H. induction H as [offset text r g more Hat Hs Hg Hm Hp Hx|offset text r g more prev older Hat Hs Hg Hm Hp Hx Ho IH];
    intros fuel acc Hf; (destruct fuel as [|fuel]; [cbn [List.length] in Hf; lia|]); cbn [List.length] in Hf; cbn [read_sections];
    rewrite (section_read decode file offset text r g more acc Hat Hs Hg Hm); cbn [rbind table_of s_trailer];
    destruct (section_map _ _ Hs) as [M1 M2]; unfold sm_contains, find_int.
  - rewrite (absent_find (str "Prev") _ M1 M2 (str_bytes _) Hp). reflexivity.
  - rewrite (proj2 (sm_find_in _ _ _ M1 M2 (str_bytes _)) Hp). cbn [int_value rbind]. rewrite IH by lia. rewrite <- app_assoc. reflexivity.
Qed.
Lemma revisions_plain : forall file offset revs, revisions file offset revs ->
  revs <> [] /\ forall r, In r revs -> (exists text, section_text text r) /\ sm_find (str "XRefStm") (r_trailer r) = None.
Proof.
  intros file offset revs H. induction H as [offset text r g more Hat Hs Hg Hm Hp Hx|offset text r g more prev older Hat Hs Hg Hm Hp Hx Ho [_ IH]];
    (split; [discriminate|]); intros r' [<-|Hin]; try (destruct Hin; fail); try (apply IH; exact Hin);
    (split; [exists text; exact Hs|]); destruct (section_map _ _ Hs) as [M1 M2]; apply absent_find; auto using str_bytes.
Qed.
Lemma chain_read : forall decode file offset revs fuel, revisions file offset revs -> (List.length revs <= fuel)%nat ->
  read_chain parser_dictionary decode fuel file (Z.of_N offset) = Ok (map table_of revs).
Proof.
  intros decode file offset revs fuel H Hf. destruct (revisions_plain _ _ _ H) as [Hne Hp]. apply Proof.Update.chain_finished.
  - destruct revs; [congruence|discriminate].
  - rewrite (sections_read decode file offset revs H) by exact Hf. reflexivity.
  - intros s Hs. apply in_map_iff in Hs. destruct Hs as (r & <- & Hr). split; [reflexivity|]. apply Hp. exact Hr.
Qed.

(** ** the first and the last lines *)
Lemma header_read : forall v e rest, line_end e -> read_header (str "%PDF-" ++ version_digits v ++ e ++ rest) = Ok v.
Proof.
  intros v e rest He. unfold read_header. cbn [read_header_fuel].
  replace (str "%PDF-" ++ version_digits v ++ e ++ rest) with ((str "%PDF-" ++ version_digits v) ++ e ++ rest) by (rewrite <- app_assoc; reflexivity).
  assert (Hn : Forall (fun c => c <> 10 /\ c <> 13) (str "%PDF-" ++ version_digits v)) by (destruct v; repeat constructor; discriminate).
  assert (E : exists r b, readline ((str "%PDF-" ++ version_digits v) ++ e ++ rest) = (str "%PDF-" ++ version_digits v, r, b)).
  { destruct He as [<-|[<-|[<-|[]]]]; cbn [app].
    - rewrite readline_line by exact Hn. eauto.
    - rewrite readline_cr by exact Hn. destruct (readline (13 :: rest)) as [[? ?] ?]. eauto.
    - rewrite readline_cr by exact Hn. destruct (readline (13 :: 10 :: rest)) as [[? ?] ?]. eauto. }
  destruct E as (r & b & E). rewrite E. destruct v; reflexivity.
Qed.

Lemma last_lines_any : forall pre e1 ds n e2 e3, ends_white pre -> line_end e1 -> number_text ds n -> line_end e2 ->
  Forall (fun c => In c pdf_white) e3 -> n < 2 ^ 63 ->
  read_last_xref_offset (rev (pre ++ str "startxref" ++ e1 ++ ds ++ e2 ++ str "%%EOF" ++ e3)) = Ok (Z.of_N n).
Proof.
  intros pre e1 ds n e2 e3 Hpre He1 Hds He2 He3 Hn.
  assert (Hw : forall e, line_end e -> Forall (fun c => In c pdf_white) (rev e)).
  { intros e [<-|[<-|[<-|[]]]]; repeat constructor; cbn; tauto. }
  assert (Hwl : forall e, line_end e -> exists c t, rev e = c :: t /\ (c = 10 \/ c = 13)).
  { intros e [<-|[<-|[<-|[]]]]; do 2 eexists; (split; [reflexivity|]); tauto. }
  assert (Hlen : forall e, line_end e -> (List.length (rev e) <= 2)%nat).
  { intros e [<-|[<-|[<-|[]]]]; cbn; lia. }
  assert (Erev : rev (pre ++ str "startxref" ++ e1 ++ ds ++ e2 ++ str "%%EOF" ++ e3) =
    rev e3 ++ 70 :: str "OE%%" ++ rev e2 ++ rev ds ++ rev e1 ++ 102 :: str "erxtrats" ++ rev pre).
  { rewrite !rev_app_distr. rewrite <- !app_assoc. reflexivity. }
  rewrite Erev. clear Erev. unfold read_last_xref_offset.
  match goal with |- context [rev_token_skip (S ?L)] => assert (HF : (List.length (rev e3) + 4 < S L)%nat);
    [rewrite !app_length; cbn [List.length]; rewrite !app_length; change (List.length (str "OE%%")) with 4%nat; lia|];
    revert HF; generalize (S L); intros F HF end.
  rewrite (rev_skip_word (List.length (rev e3))) by (first [apply Forall_rev; exact He3|reflexivity|lia]).
  destruct (Hwl e2 He2) as (c2 & t2 & E2 & Hc2).
  unfold rev_unknown at 1. change (is_numeric 70) with false. cbv iota.
  rewrite span_not_white; [|reflexivity|rewrite E2; cbn [app]; destruct Hc2; subst; reflexivity].
  change (bytes_eqb (70 :: str "OE%%") (str "FOE%%")) with true. cbv iota. cbn [rbind].
  destruct Hds as (Hne & Hd & Hv).
  destruct (rev ds) as [|dl dr] eqn:Er.
  { exfalso. apply Hne. apply (f_equal (@rev N)) in Er. rewrite rev_involutive in Er. exact Er. }
  assert (Hdr : Forall decimal_digit (dl :: dr)) by (rewrite <- Er; apply Forall_rev; exact Hd).
  pose proof (Forall_inv Hdr) as Hdl. pose proof (Forall_inv_tail Hdr) as Hdr'.
  assert (Hnum : forall y, decimal_digit y -> is_numeric y = true) by (intros y Hx; unfold decimal_digit, is_numeric in *; lia).
  cbn [app]. assert (L2 := Hlen e2 He2). assert (L1 := Hlen e1 He1).
  rewrite (rev_skip_word (List.length (rev e2))); [|lia|apply Hw; exact He2|lia|unfold decimal_digit, is_white in *; lia].
  destruct (Hwl e1 He1) as (c1 & t1 & E1 & Hc1).
  unfold rev_unknown at 1. rewrite (Hnum dl Hdl).
  rewrite span_app; [| |rewrite E1; cbn [app]; destruct Hc1; subst; reflexivity].
  2: { apply forallb_forall. rewrite Forall_forall in Hdr'. intros x Hx. apply Hnum, Hdr', Hx. }
  assert (Es : span is_sign (rev e1 ++ 102 :: str "erxtrats" ++ rev pre) = ([], rev e1 ++ 102 :: str "erxtrats" ++ rev pre)).
  { rewrite E1. cbn [app span]. replace (is_sign c1) with false by (destruct Hc1; subst; reflexivity). reflexivity. }
  rewrite Es. cbn [rbind].
  rewrite (rev_skip_word (List.length (rev e1))); [|lia|apply Hw; exact He1|lia|reflexivity].
  unfold rev_unknown. change (is_numeric 102) with false. cbv iota.
  rewrite span_not_white; [|reflexivity|apply ends_white_rev; exact Hpre].
  change (bytes_eqb (102 :: str "erxtrats") (str "FOE%%")) with false. change (bytes_eqb (102 :: str "erxtrats") (str "ferxtrats")) with true.
  cbv iota. cbn [rbind]. rewrite app_nil_r, <- Er, rev_involutive. apply number_stoll; [|exact Hn]. repeat split; assumption.
Qed.

Lemma offset_read : forall before white e1 ds n e2 e3, In white pdf_white -> line_end e1 -> number_text ds n -> line_end e2 ->
  Forall (fun c => In c pdf_white) e3 -> n < 2 ^ 63 -> N.of_nat (List.length ds + List.length e3) <= 16000 ->
  last_xref_offset (before ++ [white] ++ str "startxref" ++ e1 ++ ds ++ e2 ++ str "%%EOF" ++ e3) = Ok (Z.of_N n).
Proof.
  intros before white e1 ds n e2 e3 Hw He1 Hds He2 He3 Hn Hl. unfold last_xref_offset.
  rewrite app_assoc. set (pre := before ++ [white]). set (tl := str "startxref" ++ e1 ++ ds ++ e2 ++ str "%%EOF" ++ e3).
  assert (Hlen : forall e, line_end e -> (List.length e <= 2)%nat) by (intros e [<-|[<-|[<-|[]]]]; cbn; lia).
  assert (HL : (List.length tl <= N.to_nat 16018)%nat).
  { unfold tl. rewrite !app_length. specialize (Hlen e1 He1) as L1. specialize (Hlen e2 He2) as L2.
    change (List.length (str "startxref")) with 9%nat. change (List.length (str "%%EOF")) with 5%nat. lia. }
  unfold trailer_window. set (k := (List.length (pre ++ tl) - _)%nat).
  assert (Hk : (k <= List.length pre)%nat).
  { unfold k. rewrite app_length. destruct (Nat.ltb_spec (List.length pre + List.length tl) (N.to_nat 16384)); lia. }
  rewrite skipn_app. replace (k - List.length pre)%nat with O by lia. cbn [skipn].
  apply last_lines_any; auto. apply ends_white_skipn. right. exists before, white. auto.
Qed.

(** ** objects *)
Lemma object_read : forall (body : list N -> obj -> Prop) rl file offset n g o,
  object_at body file offset n g o -> n < 2 ^ 63 -> g <= 65535 -> (forall txt, body txt o -> txt <> []) ->
  (forall txt, body txt o -> forall g3 g4 rest, gap g3 -> gap g4 -> (self_delimited o = false -> g4 <> []) -> token_ends rest ->
     parse_direct parser_dictionary rl (g3 ++ txt ++ g4 ++ str "endobj" ++ rest) = Ok (o, g4 ++ str "endobj" ++ rest)) ->
  load_entry parser_dictionary rl file {| xnum := n; xgen := g; xdata := KUsed (Z.of_N offset) true |} = Ok (n, g, o).
Proof.
  intros body rl file offset n g o (dn & g1 & dg & g2 & g3 & txt & g4 & rest & (before & -> & <-) & Nn & Ng & Hg1 & Hne1 & Hg2 & Hne2 & Hg3 & Hg4 & Ht & Hb & Hd & Hr) Hn Hg Hempty Hbody.
  unfold load_entry. cbn [xdata]. rewrite nat_N_Z, Nat2Z.id, skipn_exact. unfold read_indirect_object. rewrite <- !app_assoc.
  assert (E1 := expect_int parser_dictionary [] dn n). cbn [app] in E1. rewrite E1; [|constructor|exact Nn|apply gap_token_ends; assumption]. cbn [rbind].
  rewrite (expect_int _ g1 dg g) by (first [assumption|apply gap_token_ends; assumption]). cbn [rbind].
  unfold expect_skip at 1. rewrite skip_gap by exact Hg2.
  rewrite tok_keyword; [|cbn; tauto|].
  2: { rewrite app_assoc. apply token_ends_app; [exact Ht|]. left. intros E. apply app_eq_nil in E. destruct E as [_ E]. exact (Hempty txt Hb E). }
  cbn [rbind fst snd]. change (ttype_eqb (parser_dictionary (str "obj")) TyObjBegin) with true. cbv iota. cbn [rbind].
  rewrite (Hbody txt Hb g3 g4 rest Hg3 Hg4 Hd Hr). cbn [rbind].
  unfold expect_skip. rewrite skip_gap by exact Hg4. rewrite tok_keyword by (first [exact Hr|cbn; tauto]). cbn [rbind fst snd].
  change (ttype_eqb (parser_dictionary (str "endobj")) TyObjEnd) with true. cbv iota. cbn [rbind].
  rewrite (number_stoll dn n Nn Hn). cbn [rbind]. rewrite (number_stoll dg g Ng) by (change (2 ^ 63) with 9223372036854775808; lia). cbn [rbind].
  unfold to_u64, to_u16. replace (Z.of_N n <? 0)%Z with false by lia. cbn [rbind].
  replace (Z.of_N g <? 0)%Z with false by lia. replace (Z.of_N g <=? 65535)%Z with true by lia. cbn [rbind]. rewrite !N2Z.id. reflexivity.
Qed.

(** ** which entry counts *)
Lemma rows_other : forall n l acc, ~ In n (map fst l) -> xfind n (add_rows l acc) = xfind n acc.
Proof.
  intros n. induction l as [|[m r] l IH]; intros acc H; [reflexivity|]. cbn [add_rows fold_left fst snd] in *. cbn [map In fst] in H.
  change (fold_left (fun t p => xadd (entry (fst p) (snd p)) t) l (xadd (entry m r) acc)) with (add_rows l (xadd (entry m r) acc)).
  rewrite IH by tauto. apply Proof.Chain.xfind_xadd_other. rewrite entry_num. tauto.
Qed.
Lemma rows_found : forall n r l acc, NoDup (map fst l) -> In (n, r) l -> xfind n (add_rows l acc) = Some (entry n r).
Proof.
  intros n r. induction l as [|[m q] l IH]; intros acc Hd Hin; [destruct Hin|]. cbn [map fst] in Hd. inversion Hd as [|? ? Hm Hd']; subst.
  cbn [add_rows fold_left fst snd].
  change (fold_left (fun t p => xadd (entry (fst p) (snd p)) t) l (xadd (entry m q) acc)) with (add_rows l (xadd (entry m q) acc)).
  destruct Hin as [E|Hin]; [|apply IH; assumption]. apply pair_equal_spec in E. destruct E as [-> ->].
  rewrite rows_other by exact Hm. rewrite <- (entry_num n r) at 1. apply Proof.Chain.xfind_xadd_same.
Qed.

Definition once (r : revision) : Prop := NoDup (map fst (r_rows r)).
Lemma section_once : forall text r, section_text text r -> once r.
Proof. intros text r [e subs lists g dict m _ _ Hn _ _]. exact Hn. Qed.
Lemma section_row : forall text r n w, section_text text r -> In (n, w) (r_rows r) -> n < 2 ^ 63 /\ generation w <= 65535.
Proof.
  intros text r n w [e subs lists g dict m _ Hs _ _ _] Hin. cbn [r_rows] in Hin.
  assert (Hnum : forall rows first, In (n, w) (numbered first rows) -> n < first + N.of_nat (List.length rows) /\ In w rows).
  { induction rows as [|q rows IH]; intros first H; [destruct H|]. cbn [List.length]. destruct H as [E|H].
    - apply pair_equal_spec in E. destruct E as [-> ->]. split; [lia|left; reflexivity].
    - apply IH in H. destruct H. split; [lia|right; assumption]. }
  induction Hs as [|txt l subs lists Hs H IH]; cbn [concat] in Hin; [destruct Hin|]. apply in_app_or in Hin.
  destruct Hin as [Hin|Hin]; [|exact (IH Hin)]. destruct Hs as [fd first cd e' texts rows _ _ _ Hr Hb]. rewrite numbered_combine in Hin.
  apply Hnum in Hin. destruct Hin as [H1 H2]. split; [change (N.of_nat 0) with 0 in H1; lia|]. clear - Hr H2.
  induction Hr as [|txt q texts rows Hq Hr IH]; [destruct H2|]. destruct H2 as [<-|H2]; [|exact (IH H2)].
  destruct Hq as (d10 & d5 & letter & e & a & g & _ & _ & _ & _ & _ & Hg & _ & Hm). destruct q as [qo qg|qg]; cbn [generation]; [destruct Hm as (_ & _ & <-)|destruct Hm as (_ & <-)]; exact Hg.
Qed.

Lemma table_find : forall n s, once s ->
  (forall r, In (n, r) (r_rows s) -> sec_find n (table_of s) = Some (entry n r)) /\
  ((forall r, ~ In (n, r) (r_rows s)) -> sec_find n (table_of s) = None).
Proof.
  intros n s Ho. unfold sec_find, table_of. cbn [s_entries s_kind s_hybrid]. split.
  - intros r Hin. rewrite (rows_found n r) by assumption. reflexivity.
  - intros H. rewrite rows_other; [reflexivity|]. intros Hin. apply in_map_iff in Hin. destruct Hin as ([m r] & <- & Hin). exact (H r Hin).
Qed.
Lemma rows_decide : forall n s, (exists r, In (n, r) (r_rows s)) \/ forall r, ~ In (n, r) (r_rows s).
Proof.
  intros n s. induction (r_rows s) as [|[m q] l IH]; [right; intros r []|]. destruct (N.eq_dec m n) as [->|Hm]; [left; exists q; left; reflexivity|].
  destruct IH as [[r H]|H]; [left; exists r; right; exact H|right]. intros r [E|Hin]; [apply pair_equal_spec in E; destruct E; congruence|exact (H r Hin)].
Qed.

Lemma current_found : forall revs n r older, Forall once revs -> current revs n r older ->
  chain_entry n (generation r) (map table_of revs) = Some (entry n r).
Proof.
  intros revs n r older Ho (newer & s & -> & Hin & Hn). induction newer as [|x newer IH]; cbn [app map chain_entry].
  - inversion Ho; subst. rewrite (proj1 (table_find n s ltac:(assumption)) r Hin), entry_gen, N.eqb_refl. reflexivity.
  - inversion Ho as [|? ? Hx Ho']; subst. rewrite (proj2 (table_find n x Hx)) by (intros q; apply Hn; left; reflexivity).
    apply IH; [exact Ho'|]. intros y q Hy. apply Hn. right. exact Hy.
Qed.
Lemma found_listed : forall revs n g e, Forall once revs -> chain_entry n g (map table_of revs) = Some e ->
  exists newer s older r, revs = newer ++ s :: older /\ In (n, r) (r_rows s) /\ e = entry n r /\ generation r = g /\
    forall x q, In x newer -> In (n, q) (r_rows x) -> generation q <> g.
Proof.
  induction revs as [|s revs IH]; intros n g e Ho H; cbn [map chain_entry] in H; [discriminate|].
  inversion Ho as [|? ? Hs Ho']; subst. destruct (rows_decide n s) as [[r Hr]|Hr].
  - rewrite (proj1 (table_find n s Hs) r Hr), entry_gen in H. destruct (N.eqb_spec (generation r) g) as [E|E].
    + injection H as <-. exists [], s, revs, r. split; [reflexivity|]. split; [exact Hr|]. split; [reflexivity|]. split; [exact E|]. intros x q [].
    + destruct (IH n g e Ho' H) as (newer & s' & older & r' & -> & H1 & H2 & H3 & H4). exists (s :: newer), s', older, r'. repeat split; auto.
      intros x q [<-|Hx] Hq; [|exact (H4 x q Hx Hq)]. intros E'. apply E. rewrite <- E'. f_equal.
      assert (F1 := proj1 (table_find n s Hs) r Hr). assert (F2 := proj1 (table_find n s Hs) q Hq). rewrite F1 in F2. injection F2 as F2.
      clear - F2. destruct r, q; cbn [entry] in F2; inversion F2; subst; f_equal; lia.
  - rewrite (proj2 (table_find n s Hs) Hr) in H. destruct (IH n g e Ho' H) as (newer & s' & older & r' & -> & H1 & H2 & H3 & H4).
    exists (s :: newer), s', older, r'. repeat split; auto. intros x q [<-|Hx] Hq; [destruct (Hr q Hq)|exact (H4 x q Hx Hq)].
Qed.

Lemma current_once : forall revs n r1 o1 r2 o2, Forall once revs -> current revs n r1 o1 -> current revs n r2 o2 -> entry n r1 = entry n r2.
Proof.
  induction revs as [|s revs IH]; intros n r1 o1 r2 o2 Ho (a1 & s1 & E1 & I1 & N1) (a2 & s2 & E2 & I2 & N2); [destruct a1; discriminate|].
  inversion Ho as [|? ? Hs Ho']; subst.
  destruct a1 as [|x1 a1]; destruct a2 as [|x2 a2]; cbn [app] in E1, E2; injection E1 as E1 E1'; injection E2 as E2 E2'.
  - subst s1 s2. assert (F1 := proj1 (table_find n s Hs) r1 I1). assert (F2 := proj1 (table_find n s Hs) r2 I2). congruence.
  - subst x2 s1. exfalso. exact (N2 s r1 (or_introl eq_refl) I1).
  - subst x1 s2. exfalso. exact (N1 s r2 (or_introl eq_refl) I2).
  - apply (IH n r1 o1 r2 o2 Ho'); [exists a1, s1|exists a2, s2]; (split; [assumption|]); (split; [assumption|]); intros y q Hy; [apply N1|apply N2]; right; exact Hy.
Qed.

(** when the object of a reference is not the current one of its number, the reference leads nowhere *)
Lemma nothing_found : forall revs n g, Forall once revs -> not_superseded revs n g ->
  (forall offset older, ~ current revs n (InUse offset g) older) -> resolve_entry n g (map table_of revs) = None.
Proof.
  intros revs n g Ho Hns Hnc. unfold resolve_entry. destruct (chain_entry n g (map table_of revs)) as [e|] eqn:E; [|reflexivity].
  destruct (found_listed _ _ _ _ Ho E) as (newer & s & older & r & Er & Hin & -> & Hg & Hnew). destruct r as [offset g'|g']; [|reflexivity].
  cbn [generation] in Hg. subst g'. exfalso. apply (Hnc offset older). exists newer, s. split; [exact Er|]. split; [exact Hin|].
  intros x q Hx Hq. exact (Hnew x q Hx Hq (Hns newer s older offset Er Hin x q Hx Hq)).
Qed.

(** ** opening *)
Lemma newest_place : forall file v revs, conforming file v revs -> exists offset, revisions file offset revs /\ last_xref_offset file = Ok (Z.of_N offset).
Proof.
  intros file v revs (offset & Hr & _ & (before & white & e1 & ds & e2 & e3 & Hw & He1 & Hds & He2 & He3 & El & Hl) & Hb). exists offset. split; [exact Hr|].
  assert (Ho : offset < 2 ^ 63).
  { assert (Hat : exists text rest', stands_at file offset text rest') by (destruct Hr; eauto).
    destruct Hat as (text & rest' & b & Eb & <-). rewrite Eb, app_length in Hb. lia. }
  rewrite El. apply offset_read; assumption.
Qed.
Lemma opened_tables : forall decode file v revs left fuel, conforming file v revs -> (List.length revs <= fuel)%nat ->
  initialize parser_dictionary decode fuel left file = Ok (v, ByTable (map table_of revs)).
Proof.
  intros decode file v revs left fuel (offset & Hr & (e & rest & He & Ef) & (before & white & e1 & ds & e2 & e3 & Hw & He1 & Hds & He2 & He3 & El & Hl) & Hb) Hf.
  unfold initialize.
  assert (E1 : read_header file = Ok v) by (rewrite Ef; apply header_read; exact He). rewrite E1. cbn [rbind].
  assert (Ho : offset < 2 ^ 63).
  { assert (Hat : exists text rest', stands_at file offset text rest') by (destruct Hr; eauto).
    destruct Hat as (text & rest' & b & Eb & <-). rewrite Eb, app_length in Hb. lia. }
  assert (E2 : last_xref_offset file = Ok (Z.of_N offset)) by (rewrite El; apply offset_read; assumption). rewrite E2. cbn [rbind].
  rewrite (chain_read decode file offset revs fuel Hr Hf). reflexivity.
Qed.
Lemma conforming_rows : forall file v revs, conforming file v revs -> Forall once revs /\
  forall s n r, In s revs -> In (n, r) (r_rows s) -> n < 2 ^ 63 /\ generation r <= 65535.
Proof.
  intros file v revs (offset0 & Hr & _). destruct (revisions_plain _ _ _ Hr) as [_ Hsec]. split.
  - apply Forall_forall. intros r Hin. destruct (Hsec r Hin) as [[text Ht] _]. exact (section_once _ _ Ht).
  - intros s n r Hin Hn. destruct (Hsec s Hin) as [[text Ht] _]. exact (section_row _ _ _ _ Ht Hn).
Qed.
Lemma current_bounds : forall file v revs n r older, conforming file v revs -> current revs n r older -> n < 2 ^ 63 /\ generation r <= 65535.
Proof.
  intros file v revs n r older Hc (newer & s & -> & Hin & _). destruct (conforming_rows _ _ _ Hc) as [_ H]. apply (H s); [|exact Hin].
  apply in_or_app. right. left. reflexivity.
Qed.
Lemma current_resolved : forall revs n g offset older, Forall once revs -> current revs n (InUse offset g) older ->
  resolve_entry n g (map table_of revs) = Some {| xnum := n; xgen := g; xdata := KUsed (Z.of_N offset) true |}.
Proof.
  intros revs n g offset older Ho Hcur. unfold resolve_entry. assert (E := current_found _ _ _ _ Ho Hcur). cbn [generation] in E. rewrite E. reflexivity.
Qed.
Lemma direct_read : forall rl file offset n g o, object_at object_text file offset n g o -> n < 2 ^ 63 -> g <= 65535 ->
  load_entry parser_dictionary rl file {| xnum := n; xgen := g; xdata := KUsed (Z.of_N offset) true |} = Ok (n, g, o).
Proof.
  intros rl file offset n g o Hat B1 B2. apply (object_read object_text); auto.
  - intros t Ht ->. exact (Nat.nle_succ_0 _ (object_text_nonempty (fun _ _ => Undef) _ _ Ht)).
  - intros t Ht g3 g4 rest H3 H4 Hd Hr. apply parse_before_word; auto. cbn. tauto.
Qed.
Lemma object_found : forall file v revs n g offset older o k, conforming file v revs -> current revs n (InUse offset g) older ->
  object_at (body_of file revs) file offset n g o -> (2 <= k)%nat -> get_object k file (map table_of revs) n g = Ok o.
Proof.
  intros file v revs n g offset older o k Hc Hcur Hat Hk. destruct (conforming_rows _ _ _ Hc) as [Honce _].
  destruct k as [|k]; [lia|]. cbn [get_object]. rewrite (current_resolved _ _ _ _ _ Honce Hcur). destruct (current_bounds _ _ _ _ _ _ Hc Hcur) as [B1 B2]. cbn [generation] in B2.
  rewrite (object_read (body_of file revs) _ file offset n g o Hat B1 B2).
  - cbn [rbind]. rewrite !N.eqb_refl. reflexivity.
  - intros txt [Ht|(len & _ & Ht)] ->; [exact (Nat.nle_succ_0 _ (object_text_nonempty (fun _ _ => Undef) _ _ Ht))|]. inversion Ht as [dt m g0 eol data g2 Hd _ _ _ _ E].
    apply app_eq_nil in E. destruct E as [-> _]. exact (Nat.nle_succ_0 _ (object_text_nonempty (fun _ _ => Undef) _ _ Hd)).
  - intros txt [Ht|(len & Hlen & Ht)] g3 g4 rest Hg3 Hg4 Hd Hrest.
    + apply parse_before_word; auto. cbn. tauto.
    + apply parse_gap; [exact Hg3|]. apply (parse_stream_text len); [|exact Ht|].
      * intros a b z Hz. destruct (Hlen a b z Hz) as (off' & old' & Hcur' & Hat'). destruct k as [|k]; [lia|]. cbn [get_object].
        rewrite (current_resolved _ _ _ _ _ Honce Hcur'). destruct (current_bounds _ _ _ _ _ _ Hc Hcur') as [B1' B2']. cbn [generation] in B2'.
        rewrite (direct_read _ file off' a b (OInt z) Hat' B1' B2'). cbn [rbind]. rewrite !N.eqb_refl. reflexivity.
      * destruct Ht as [dt m g0 eol data g2 _ _ _ _ _]. apply gap_token_ends; [exact Hg4|]. apply Hd. reflexivity.
Qed.

(** Reading files with cross-reference streams and object streams that follow the standard. *)
From Coq Require Import List NArith ZArith Bool Lia String.
From Coq Require Import List.
From Verif.Model Require Import Base Char Numbers SMap Object Token Parser Arith Lines Xref StartXref Header FileWrite Chain ObjStream Rebuild Compressed.
From Verif.Spec Require Import Strings Grammar Conforming Compressed.
From Verif.Proof Require Import Tac Numbers Strings SMap Token Parser Writer StreamObj Arith Xref XrefStream StartXref FileWrite Conforming.
From Verif.Proof Require Chain.
Import ListNotations.
Local Open Scope N_scope.

(** ** fields *)
Lemma endian_mono : forall bs a, a <= fold_left (fun a b => a * 256 + b) bs a.
Proof. induction bs as [|b bs IH]; intros a; cbn [fold_left]; [lia|]. specialize (IH (a * 256 + b)). lia. Qed.
Lemma field_read_from : forall bs a s, all_bytes bs -> fold_left (fun a b => a * 256 + b) bs a < 2 ^ 63 ->
  read_field (List.length bs) (Z.of_N a) (bs ++ s) = Ok (Z.of_N (fold_left (fun a b => a * 256 + b) bs a), s).
Proof.
  induction bs as [|b bs IH]; intros a s Hb H; cbn [List.length read_field app fold_left] in *; [reflexivity|].
  inversion Hb as [|? ? Hb1 Hb2]; subst. assert (M := endian_mono bs (a * 256 + b)).
  assert (S : a * 256 + b < 9223372036854775808) by (change (2 ^ 63) with 9223372036854775808 in H; lia).
  rewrite (wrap64_small (Z.of_N a * 256)) by (change (2 ^ 63)%Z with 9223372036854775808%Z; lia).
  rewrite wrap64_small by (change (2 ^ 63)%Z with 9223372036854775808%Z; lia).
  replace (Z.of_N a * 256 + Z.of_N b)%Z with (Z.of_N (a * 256 + b)) by lia. apply IH; assumption.
Qed.
Lemma field_read : forall bs w s, List.length bs = w -> all_bytes bs -> big_endian bs < 2 ^ 63 -> read_field w 0 (bs ++ s) = Ok (Z.of_N (big_endian bs), s).
Proof. intros bs w s <- Hb H. exact (field_read_from bs 0 s Hb H). Qed.

(** ** rows *)
Definition entry_like (n : N) (q : entry_row) (e : xentry) : Prop :=
  xnum e = n /\ match q with
                | AtOffset o g => xgen e = g /\ xdata e = KUsed (Z.of_N o) true
                | Deleted g => xgen e = g /\ exists k, xdata e = KFree k
                | Packed s i => xgen e = 0 /\ xdata e = KComp s i
                | Reserved _ => False
                end.
Lemma number_of_row : forall first i, first + i < 2 ^ 63 -> i < 2 ^ 31 ->
  add_u64_int (Z.to_N (wrap uint64_t (Z.of_N first))) (Z.of_N i) = Ok (first + i).
Proof.
  intros first i H1 H2. change (2 ^ 63) with 9223372036854775808 in H1. change (2 ^ 31) with 2147483648 in H2.
  rewrite wrapu64_small by (change (2 ^ 64)%Z with 18446744073709551616%Z; lia). rewrite N2Z.id.
  rewrite add_u64_int_ok by (unfold int32_max; first [lia|change (2 ^ 64) with 18446744073709551616; lia]). rewrite N2Z.id. reflexivity.
Qed.
Definition widths_of (w1 w2 w3 : nat) : widths := (Z.of_nat w1, Z.of_nat w2, Z.of_nat w3).
Definition reserved (q : entry_row) : Prop := match q with Reserved _ => True | _ => False end.
Lemma reserved_decide : forall q, {reserved q} + {~ reserved q}.
Proof. intros []; cbn; auto. Qed.
Lemma row_read : forall w1 w2 w3 txt q first i s, row_data w1 w2 w3 txt q -> (0 < w1)%nat -> first + i < 2 ^ 63 -> i < 2 ^ 31 ->
  (reserved q -> read_stream_entry (widths_of w1 w2 w3) (Z.of_N first) (Z.of_N i) (txt ++ s) = Throw EGeneral) /\
  (~ reserved q -> exists e, entry_like (first + i) q e /\ read_stream_entry (widths_of w1 w2 w3) (Z.of_N first) (Z.of_N i) (txt ++ s) = Ok (e, s)).
Proof.
  intros w1 w2 w3 txt q first i s (f1 & f2 & f3 & -> & L1 & L2 & L3 & Hb & B1 & B2 & B3 & Hq) Hw H1 H2.
  unfold all_bytes in Hb. apply Forall_app in Hb. destruct Hb as [Hb1 Hb]. apply Forall_app in Hb. destruct Hb as [Hb2 Hb3].
  assert (T : row_type f1 = big_endian f1) by (destruct f1; [cbn in L1; lia|reflexivity]). rewrite T in *. clear T.
  unfold read_stream_entry, widths_of. rewrite !Nat2Z.id, <- !app_assoc.
  rewrite (field_read f1) by assumption. cbn [rbind]. rewrite (field_read f2) by assumption. cbn [rbind]. rewrite (field_read f3) by assumption. cbn [rbind].
  rewrite number_of_row by assumption. cbn [rbind].
  assert (W : wrap uint64_t (Z.of_N (big_endian f2)) = Z.of_N (big_endian f2)).
  { apply wrapu64_small. change (2 ^ 63) with 9223372036854775808 in B2. change (2 ^ 64)%Z with 18446744073709551616%Z. lia. }
  rewrite W, N2Z.id. unfold to_u16, to_u64. replace (Z.of_N (big_endian f3) <? 0)%Z with false by lia.
  destruct q as [o g|g|st ix|t]; cbn [reserved]; (split; [intros Hr|intros Hr]); try (destruct Hr; fail); try (destruct (Hr I); fail).
  - destruct Hq as (E1 & E2 & E3 & Hg). rewrite E1, E2, E3. replace (Z.of_N g <=? 65535)%Z with true by lia. rewrite N2Z.id.
    change (Z.of_N 1 =? 0)%Z with false. change (Z.of_N 1 =? 1)%Z with true. cbv iota. cbn [rbind]. eexists. split; [|reflexivity]. split; [reflexivity|split; reflexivity].
  - destruct Hq as (E1 & E3 & Hg). rewrite E1, E3. replace (Z.of_N g <=? 65535)%Z with true by lia. rewrite N2Z.id.
    change (Z.of_N 0 =? 0)%Z with true. cbv iota. cbn [rbind]. eexists. split; [|reflexivity]. split; [reflexivity|]. split; [reflexivity|eexists; reflexivity].
  - destruct Hq as (E1 & E2 & E3). rewrite E1, E2, E3, N2Z.id.
    change (Z.of_N 2 =? 0)%Z with false. change (Z.of_N 2 =? 1)%Z with false. change (Z.of_N 2 =? 2)%Z with true. cbv iota. cbn [rbind].
    eexists. split; [|reflexivity]. split; [reflexivity|split; reflexivity].
  - destruct Hq as (E1 & E2). rewrite E1. replace (Z.of_N t =? 0)%Z with false by lia. replace (Z.of_N t =? 1)%Z with false by lia.
    replace (Z.of_N t =? 2)%Z with false by lia. reflexivity.
Qed.

Fixpoint count_up {A} (first : N) (rows : list A) : list (N * A) := match rows with [] => [] | r :: t => (first, r) :: count_up (first + 1) t end.
Lemma count_combine : forall A (rows : list A) first k,
  combine (map (fun i => first + N.of_nat i) (List.seq k (List.length rows))) rows = count_up (first + N.of_nat k) rows.
Proof.
  intros A. induction rows as [|r rows IH]; intros first k; [reflexivity|]. cbn [List.length List.seq map combine count_up]. f_equal.
  rewrite IH. f_equal. lia.
Qed.
Definition add_all (es : list xentry) (t : list xentry) : list xentry := fold_left (fun t e => xadd e t) es t.
Lemma rows_read : forall w1 w2 w3 texts rows, Forall2 (row_data w1 w2 w3) texts rows -> (0 < w1)%nat ->
  forall first i s t, first + i + N.of_nat (List.length rows) <= 2 ^ 63 -> i + N.of_nat (List.length rows) < 2 ^ 31 ->
  (Exists reserved rows -> read_stream_rows (widths_of w1 w2 w3) (Z.of_N first) (List.length rows) (Z.of_N i) (concat texts ++ s) t = Throw EGeneral) /\
  (Forall (fun q => ~ reserved q) rows -> exists es, Forall2 (fun p e => entry_like (fst p) (snd p) e) (count_up (first + i) rows) es /\
     read_stream_rows (widths_of w1 w2 w3) (Z.of_N first) (List.length rows) (Z.of_N i) (concat texts ++ s) t = Ok (add_all es t, s)).
Proof.
  intros w1 w2 w3 texts rows H Hw. induction H as [|txt q texts rows Hq H IH]; intros first i s t H1 H2; cbn [List.length concat app read_stream_rows count_up] in *.
  - split; [intros E; inversion E|]. intros _. exists []. split; [constructor|reflexivity].
  - rewrite <- app_assoc. destruct (row_read w1 w2 w3 txt q first i (concat texts ++ s) Hq Hw ltac:(lia) ltac:(lia)) as [R1 R2].
    destruct (reserved_decide q) as [Hr|Hr].
    + split; [intros _; rewrite (R1 Hr); reflexivity|]. intros F. inversion F; subst. contradiction.
    + destruct (R2 Hr) as (e & He & E). rewrite E. cbn [rbind].
      assert (I : (int32_max <=? Z.of_N i)%Z = false) by (unfold int32_max; change (2 ^ 31) with 2147483648 in H2; change (2 ^ 31 - 1)%Z with 2147483647%Z; lia).
      rewrite I. replace (Z.of_N i + 1)%Z with (Z.of_N (i + 1)) by lia.
      destruct (IH first (i + 1) s (xadd e t) ltac:(lia) ltac:(lia)) as [I1 I2]. split.
      * intros Ex. apply I1. inversion Ex; subst; [contradiction|assumption].
      * intros F. inversion F as [|? ? _ F']; subst. destruct (I2 F') as (es & Hes & Ees). exists (e :: es). split; [|exact Ees].
        constructor; [exact He|]. replace (first + i + 1) with (first + (i + 1)) by lia. exact Hes.
Qed.
Lemma map_count_up : forall A (rows : list A) first, map snd (count_up first rows) = rows.
Proof. intros A. induction rows as [|r rows IH]; intros first; [reflexivity|]. cbn [count_up map snd]. f_equal. apply IH. Qed.
Lemma index_read : forall w1 w2 w3 index data rows, subsections_data w1 w2 w3 index data rows -> (0 < w1)%nat ->
  exists zs, int_values index = Ok zs /\ forall t,
  (Exists reserved (map snd rows) -> read_stream_index (widths_of w1 w2 w3) zs data t = Throw EGeneral) /\
  (Forall (fun q => ~ reserved q) (map snd rows) -> exists es, Forall2 (fun p e => entry_like (fst p) (snd p) e) rows es /\
     read_stream_index (widths_of w1 w2 w3) zs data t = Ok (add_all es t)).
Proof.
  intros w1 w2 w3 index data rows H Hw. induction H as [|first texts rows index data l Hr H1 H2 H (zs & Ez & IH)].
  - exists []. split; [reflexivity|]. intros t. split; [intros E; inversion E|]. intros _. exists []. split; [constructor|reflexivity].
  - exists (Z.of_N first :: Z.of_nat (List.length rows) :: zs). split; [cbn [int_values int_value rbind]; rewrite Ez; reflexivity|]. intros t.
    cbn [read_stream_index]. rewrite Nat2Z.id, count_combine. change (N.of_nat 0) with 0. rewrite N.add_0_r, map_app, map_count_up.
    destruct (rows_read w1 w2 w3 texts rows Hr Hw first 0 data t ltac:(lia) ltac:(lia)) as [R1 R2]. change (Z.of_N 0) with 0%Z in *. rewrite N.add_0_r in R2. split.
    + intros E. apply Exists_app in E. destruct (Forall_Exists_dec (fun q => ~ reserved q) (fun q => match reserved_decide q with left a => right (fun b => b a) | right b => left b end) rows) as [F|F].
      * destruct E as [E|E]; [exfalso; apply (proj1 (Forall_Exists_neg _ _)) in F; contradiction|]. destruct (R2 F) as (es & _ & Ees). rewrite Ees. cbn [rbind].
        apply (proj1 (IH _)). exact E.
      * rewrite R1; [reflexivity|]. clear - F. induction F as [q rows F|q rows F IH]; [left; destruct (reserved_decide q); [assumption|contradiction]|right; exact IH].
    + intros F. apply Forall_app in F. destruct F as [F1 F2]. destruct (R2 F1) as (es & Hes & Ees). rewrite Ees. cbn [rbind].
      destruct (proj2 (IH (add_all es t)) F2) as (es2 & Hes2 & Ees2). exists (es ++ es2). split; [apply Forall2_app; assumption|].
      rewrite Ees2. unfold add_all. rewrite fold_left_app. reflexivity.
Qed.

(** ** what a section lists *)
Lemma all_other : forall n es acc, (forall e, In e es -> xnum e <> n) -> xfind n (add_all es acc) = xfind n acc.
Proof.
  intros n. induction es as [|e es IH]; intros acc H; [reflexivity|]. cbn [add_all fold_left]. fold (add_all es (xadd e acc)).
  rewrite IH by (intros x Hx; apply H; right; exact Hx). apply Proof.Chain.xfind_xadd_other. specialize (H e (or_introl eq_refl)). congruence.
Qed.
Lemma like_num : forall n q e, entry_like n q e -> xnum e = n. Proof. intros n q e [H _]. exact H. Qed.
Lemma likes_nums : forall rows es, Forall2 (fun p e => entry_like (fst p) (snd p) e) rows es -> map xnum es = map fst rows.
Proof. intros rows es H. induction H as [|p e rows es Hp H IH]; [reflexivity|]. cbn [map]. rewrite (like_num _ _ _ Hp). f_equal. exact IH. Qed.
Lemma all_found : forall rows es, Forall2 (fun p e => entry_like (fst p) (snd p) e) rows es -> NoDup (map fst rows) ->
  forall n q acc, In (n, q) rows -> exists e, xfind n (add_all es acc) = Some e /\ entry_like n q e.
Proof.
  intros rows es H. induction H as [|[m q'] e rows es Hp H IH]; intros Hd n q acc Hin; [destruct Hin|]. cbn [map fst] in Hd. inversion Hd as [|? ? Hm Hd']; subst.
  cbn [add_all fold_left]. fold (add_all es (xadd e acc)). destruct Hin as [E|Hin]; [|apply IH; assumption].
  apply pair_equal_spec in E. destruct E as [-> ->]. exists e. split; [|exact Hp]. rewrite all_other.
  - cbn [fst snd] in Hp. rewrite <- (like_num _ _ _ Hp). apply Proof.Chain.xfind_xadd_same.
  - intros x Hx E. apply Hm. rewrite <- (likes_nums _ _ H), <- E. apply in_map. exact Hx.
Qed.

Record section_like (r : revision) (s : section) : Prop := {
  sl_hybrid : s_hybrid s = None;
  sl_trailer : s_trailer s = v_trailer r;
  sl_kind : s_kind s <> SVirtual;
  sl_table : s_kind s = STable -> sm_find (str "XRefStm") (s_trailer s) = None;
  sl_once : NoDup (map fst (v_rows r));
  sl_listed : forall n q, In (n, q) (v_rows r) -> exists e, sec_find n s = Some e /\ entry_like n q e;
  sl_others : forall n, (forall q, ~ In (n, q) (v_rows r)) -> sec_find n s = None
}.
Lemma find_own : forall n s, s_hybrid s = None -> sec_find n s = xfind n (s_entries s).
Proof. intros n s H. unfold sec_find. rewrite H. destruct (xfind n (s_entries s)); [reflexivity|]. destruct (s_kind s); reflexivity. Qed.
Lemma like_of_entries : forall rows es m self kind, Forall2 (fun p e => entry_like (fst p) (snd p) e) rows es -> NoDup (map fst rows) -> kind <> SVirtual ->
  (kind = STable -> sm_find (str "XRefStm") m = None) ->
  section_like {| v_rows := rows; v_trailer := m; v_self := self |} {| s_kind := kind; s_entries := add_all es []; s_hybrid := None; s_trailer := m |}.
Proof.
  intros rows es m self kind H Hd Hk Ht. constructor; cbn [s_hybrid s_trailer s_kind v_rows v_trailer]; auto.
  - intros n q Hin. rewrite find_own by reflexivity. cbn [s_entries]. exact (all_found rows es H Hd n q [] Hin).
  - intros n Hn. rewrite find_own by reflexivity. cbn [s_entries]. rewrite all_other; [reflexivity|]. intros e He E.
    assert (Hin : In n (map fst rows)) by (rewrite <- (likes_nums _ _ H), <- E; apply in_map; exact He).
    apply in_map_iff in Hin. destruct Hin as ([a q] & <- & Hin). exact (Hn q Hin).
Qed.

(** ** reading a section *)
Lemma entry_of_row : forall n r, entry_like n (table_row r) (entry n r).
Proof. intros n [o g|g]; (split; [reflexivity|]); (split; [reflexivity|]); [reflexivity|eexists; reflexivity]. Qed.
Lemma table_like : forall text r, section_text text r -> (forall v, ~ In (str "XRefStm", v) (r_trailer r)) ->
  section_like {| v_rows := map (fun p => (fst p, table_row (snd p))) (r_rows r); v_trailer := r_trailer r; v_self := None |} (table_of r).
Proof.
  intros text r Hs Hx. assert (Ho := section_once _ _ Hs). destruct (section_map _ _ Hs) as [M1 M2].
  assert (E : table_of r = {| s_kind := STable; s_entries := add_all (map (fun p => entry (fst p) (snd p)) (r_rows r)) []; s_hybrid := None; s_trailer := r_trailer r |}).
  { unfold table_of. f_equal. unfold add_rows, add_all. generalize (@nil xentry). induction (r_rows r) as [|p l IH]; intros t; [reflexivity|]. cbn [fold_left map]. apply IH. }
  rewrite E. apply like_of_entries.
  - clear. induction (r_rows r) as [|p l IH]; cbn [map]; [constructor|]. constructor; [apply entry_of_row|exact IH].
  - rewrite map_map. exact Ho.
  - discriminate.
  - intros _. apply absent_find; auto using str_bytes.
Qed.

Lemma body_gap : forall len rl txt o, stream_text len txt o -> (forall a b z, len a b = Some z -> rl a b = Ok z) ->
  txt <> [] /\ forall g3 g4 rest, gap g3 -> gap g4 -> (self_delimited o = false -> g4 <> []) -> token_ends rest ->
  parse_direct parser_dictionary rl (g3 ++ txt ++ g4 ++ str "endobj" ++ rest) = Ok (o, g4 ++ str "endobj" ++ rest).
Proof.
  intros len rl txt o Ht Hl. split.
  - intros ->. inversion Ht as [dt m g0 eol data g2 Hd _ _ _ _ E]. apply app_eq_nil in E. destruct E as [-> _].
    exact (Nat.nle_succ_0 _ (object_text_nonempty (fun _ _ => Undef) _ _ Hd)).
  - intros g3 g4 rest Hg3 Hg4 Hd Hrest. apply parse_gap; [exact Hg3|]. apply (parse_stream_text len); [exact Hl|exact Ht|].
    destruct Ht as [dt m g0 eol data g2 _ _ _ _ _]. apply gap_token_ends; [exact Hg4|]. apply Hd. reflexivity.
Qed.
Lemma stream_map : forall len txt m data, stream_text len txt (OStream m data) -> sm_sorted m /\ sm_keys_ok m.
Proof. intros len txt m data H. inversion H as [dt m' g0 eol data' g2 Hd _ _ _ _ E1 E2]. subst m' data'. exact (text_map dt m Hd). Qed.

Lemma heading_peek : forall rl s x, read_indirect_object parser_dictionary rl s = Ok x -> peek_type_skip parser_dictionary s = Ok TyInt.
Proof.
  intros rl s x H. unfold read_indirect_object in H. apply rbind_ok in H. destruct H as ([nv r] & H & _). unfold expect_skip in H. apply rbind_ok in H.
  destruct H as ([[ty v] r'] & E & H). cbn [fst snd] in H. unfold peek_type_skip. rewrite E. cbn [rbind fst]. destruct ty; try discriminate H. reflexivity.
Qed.
Lemma object_read_section : forall len rl file offset n g m data,
  object_at (stream_text len) file offset n g (OStream m data) -> (forall a b z, len a b = Some z -> rl a b = Ok z) -> n < 2 ^ 63 -> g <= 65535 ->
  (exists rest, read_indirect_object parser_dictionary rl (at_position file (Z.of_N offset)) = Ok (n, g, OStream m data, rest)) /\
  load_entry parser_dictionary rl file {| xnum := n; xgen := g; xdata := KUsed (Z.of_N offset) true |} = Ok (n, g, OStream m data).
Proof.
  intros len rl file offset n g m data Hat Hl Hn Hg.
  assert (L : load_entry parser_dictionary rl file {| xnum := n; xgen := g; xdata := KUsed (Z.of_N offset) true |} = Ok (n, g, OStream m data)).
  { apply (object_read (stream_text len)); auto.
    - intros t Ht. exact (proj1 (body_gap len rl t _ Ht Hl)).
    - intros t Ht. exact (proj2 (body_gap len rl t _ Ht Hl)). }
  split; [|exact L]. unfold load_entry in L. cbn [xdata] in L. apply rbind_ok in L. destruct L as ([[[n' g'] o'] rest] & E & L). apply Ok_inj in L.
  apply pair_equal_spec in L. destruct L as [L ->]. apply pair_equal_spec in L. destruct L as [-> ->]. exists rest.
  destruct Hat as (dn & g1 & dg & g2 & g3 & txt & g4 & rest' & (before & -> & <-) & Nn & _). rewrite position_exact; [|].
  - rewrite nat_N_Z, Nat2Z.id, skipn_exact in E. exact E.
  - destruct Nn as (Hne & _). destruct dn; [congruence|discriminate].
Qed.

Lemma stream_section : forall decode file offset n g m data body w1 w2 w3 size index rows own c,
  object_at (stream_text (fun _ _ => None)) file offset n g (OStream m data) -> n < 2 ^ 63 -> g <= 65535 -> decode m data = Ok body ->
  In (str "W", OArr [OInt (Z.of_nat w1); OInt (Z.of_nat w2); OInt (Z.of_nat w3)]) m -> In (str "Size", OInt size) m ->
  (In (str "Index", OArr index) m \/ (forall v, ~ In (str "Index", v) m) /\ index = [OInt 0; OInt size]) ->
  subsections_data w1 w2 w3 index body rows -> NoDup (map fst rows) -> In (n, AtOffset own g) rows -> (0 < w1)%nat ->
  (Exists reserved (map snd rows) -> read_section parser_dictionary decode file c (Z.of_N offset) = Throw EGeneral) /\
  (Forall (fun q => ~ reserved q) (map snd rows) -> exists s, read_section parser_dictionary decode file c (Z.of_N offset) = Ok (c, s) /\
    section_like {| v_rows := rows; v_trailer := m; v_self := Some (n, g) |} s).
Proof.
  intros decode file offset n g m data body w1 w2 w3 size index rows own c Hat Hn Hg Hdec HW HS HI Hsub Hd Hself Hw.
  destruct (object_read_section (fun _ _ => None) opening_length file offset n g m data Hat ltac:(discriminate) Hn Hg) as [(rest & E) _].
  assert (M : sm_sorted m /\ sm_keys_ok m).
  { destruct Hat as (dn & g1 & dg & g2 & g3 & txt & g4 & rest' & _ & _ & _ & _ & _ & _ & _ & _ & _ & _ & Ht & _). exact (stream_map _ _ _ _ Ht). }
  destruct M as [M1 M2].
  destruct (index_read w1 w2 w3 index body rows Hsub Hw) as (zs & Ez & R). destruct (R []) as [R1 R2].
  assert (ES : sm_find (str "Size") m = Some (OInt size)) by (apply sm_find_in; auto using str_bytes).
  assert (EW : sm_find (str "W") m = Some (OArr [OInt (Z.of_nat w1); OInt (Z.of_nat w2); OInt (Z.of_nat w3)])) by (apply sm_find_in; auto using str_bytes).
  assert (P : parse_stream_section decode c n g m data =
    (do entries <- read_stream_index (widths_of w1 w2 w3) zs body [];;
     let sec := {| s_kind := SStream; s_entries := entries; s_hybrid := None; s_trailer := m |} in
     if names_self n g entries then Ok (c, sec)
     else
       let c' := match chain_entry n g c with
                 | Some _ => c
                 | None => c ++ [{| s_kind := SVirtual; s_entries := [{| xnum := n; xgen := g; xdata := KUsed (-1) true |}];
                                    s_hybrid := None; s_trailer := [] |}]
                 end in
       match chain_entry n g c' with
       | Some e => match xdata e with KUsed _ _ => Ok (c', sec) | _ => Throw EGeneral end
       | None => Throw EObjectMissing
       end)).
  { unfold parse_stream_section, find_ints, find_int, sm_contains. rewrite EW, ES. cbn [int_values int_value rbind].
    destruct HI as [HI|[HI ->]].
    - assert (EI : sm_find (str "Index") m = Some (OArr index)) by (apply sm_find_in; auto using str_bytes). rewrite EI, Ez. cbn [rbind]. rewrite Hdec. reflexivity.
    - rewrite (absent_find (str "Index") m M1 M2 (str_bytes _) HI). cbn [rbind]. rewrite Hdec. cbn [rbind]. cbn [int_values int_value rbind] in Ez. apply Ok_inj in Ez. subst zs. reflexivity. }
  unfold read_section. rewrite (heading_peek _ _ _ E). cbn [rbind]. change (ttype_eqb TyInt TyXref) with false. cbv iota. rewrite E. cbn [rbind]. rewrite P. split.
  - intros Ex. rewrite (R1 Ex). reflexivity.
  - intros F. destruct (R2 F) as (es & Hes & Ees). rewrite Ees. cbn [rbind].
    assert (Hs : names_self n g (add_all es []) = true).
    { destruct (all_found rows es Hes Hd n (AtOffset own g) [] Hself) as (e & Ef & (N1 & N2 & N3)). unfold names_self. apply existsb_exists. exists e.
      split; [unfold xfind in Ef; apply find_some in Ef; apply Ef|]. rewrite N3, N1, N2, !N.eqb_refl. reflexivity. }
    cbv zeta. rewrite Hs. eexists. split; [reflexivity|]. apply like_of_entries; auto; discriminate.
Qed.

Lemma section_reads : forall decode file {strict} offset r c, section_at decode file strict offset r -> types_given [r] ->
  (Exists reserved (map snd (v_rows r)) -> read_section parser_dictionary decode file c (Z.of_N offset) = Throw EGeneral) /\
  (Forall (fun q => ~ reserved q) (map snd (v_rows r)) -> exists s, read_section parser_dictionary decode file c (Z.of_N offset) = Ok (c, s) /\ section_like r s).
Proof.
  intros decode file strict offset r c [text r0 g more Hat Hs Hg Hm Hx|n g m data body w1 w2 w3 size index rows own Hat Hn Hg Hdec HW HS HI Hsub Hd Hself Hown] Hty.
  - cbn [v_rows]. split.
    + intros Ex. exfalso. apply Exists_exists in Ex. destruct Ex as (q & Hin & Hq). apply in_map_iff in Hin. destruct Hin as (p & <- & Hin).
      apply in_map_iff in Hin. destruct Hin as ([a [o b|b]] & <- & _); exact Hq.
    + intros _. exists (table_of r0). split; [exact (section_read decode file offset text r0 g more c Hat Hs Hg Hm)|]. exact (table_like text r0 Hs Hx).
  - cbn [v_rows]. assert (Hw : (0 < w1)%nat).
    { destruct w1; [|lia]. exfalso. refine (Hty _ _ _ (or_introl eq_refl) _ HW eq_refl). discriminate. }
    exact (stream_section decode file offset n g m data body w1 w2 w3 size index rows own c Hat Hn Hg Hdec HW HS HI Hsub Hd Hself Hw).
Qed.

(** ** the chain *)
Lemma section_trailer : forall decode file {strict} offset r, section_at decode file strict offset r -> sm_sorted (v_trailer r) /\ sm_keys_ok (v_trailer r).
Proof.
  intros decode file strict offset r [text r0 g more Hat Hs Hg Hm Hx|n g m data body w1 w2 w3 size index rows own Hat _ _ _ _ _ _ _ _ _ _]; cbn [v_trailer].
  - exact (section_map _ _ Hs).
  - destruct Hat as (dn & g1 & dg & g2 & g3 & txt & g4 & rest' & _ & _ & _ & _ & _ & _ & _ & _ & _ & _ & Ht & _). exact (stream_map _ _ _ _ Ht).
Qed.
Lemma types_cons : forall r l, types_given (r :: l) -> types_given [r] /\ types_given l.
Proof. intros r l H. split; intros s a w Hin; [destruct Hin as [<-|[]]|]; apply H; [left; reflexivity|right; exact Hin]. Qed.
Definition all_known (r : revision) : Prop := Forall (fun q => ~ reserved q) (map snd (v_rows r)).
Lemma history_reads : forall decode file {strict} offset revs, history decode file strict offset revs -> types_given revs ->
  forall fuel acc, (List.length revs <= fuel)%nat ->
  (Forall all_known revs -> exists c, read_sections parser_dictionary decode fuel file acc (Z.of_N offset) = Ok (acc ++ c) /\ Forall2 section_like revs c) /\
  (Exists (fun r => Exists reserved (map snd (v_rows r))) revs -> read_sections parser_dictionary decode fuel file acc (Z.of_N offset) = Throw EGeneral).
Proof.
  intros decode file strict offset revs H. induction H as [offset r Hs Hp|offset r prev older Hs Hp Ho IH]; intros Hty fuel acc Hf;
    (destruct fuel as [|fuel]; [cbn [List.length] in Hf; lia|]); cbn [List.length] in Hf; destruct (types_cons _ _ Hty) as [Hty1 Hty2];
    destruct (section_reads decode file offset r acc Hs Hty1) as [R1 R2]; destruct (section_trailer _ _ _ _ Hs) as [M1 M2]; cbn [read_sections].
  - split.
    + intros F. inversion F as [|? ? F1 _]; subst. destruct (R2 F1) as (s & E & L). exists [s]. rewrite E. cbn [rbind]. rewrite (sl_trailer _ _ L).
      unfold sm_contains. rewrite (absent_find (str "Prev") _ M1 M2 (str_bytes _) Hp). split; [reflexivity|]. constructor; [exact L|constructor].
    + intros Ex. inversion Ex as [? ? Ex1|? ? Ex1]; subst; [|inversion Ex1]. rewrite (R1 Ex1). reflexivity.
  - assert (D : {all_known r} + {Exists reserved (map snd (v_rows r))}).
    { destruct (Forall_Exists_dec (fun q => ~ reserved q) (fun q => match reserved_decide q with left a => right (fun b => b a) | right b => left b end) (map snd (v_rows r))) as [F|F]; [left; exact F|right].
      clear - F. induction F as [q rows F|q rows F IH']; [left; destruct (reserved_decide q); [assumption|contradiction]|right; exact IH']. }
    destruct D as [F|Ex].
    + destruct (R2 F) as (s & E & L). rewrite E. cbn [rbind]. rewrite (sl_trailer _ _ L). unfold sm_contains, find_int.
      rewrite (proj2 (sm_find_in _ _ _ M1 M2 (str_bytes _)) Hp). cbn [int_value rbind].
      destruct (IH Hty2 fuel (acc ++ [s]) ltac:(lia)) as [I1 I2]. split.
      * intros F'. inversion F' as [|? ? _ F2]; subst. destruct (I1 F2) as (c & Ec & Lc). exists (s :: c). rewrite Ec, <- app_assoc. split; [reflexivity|].
        constructor; assumption.
      * intros Ex. apply I2. inversion Ex as [? ? Ex1|? ? Ex1]; subst; [|exact Ex1]. exfalso. unfold all_known in F. apply Forall_Exists_neg in F. contradiction.
    + rewrite (R1 Ex). split; [|reflexivity]. intros F. inversion F as [|? ? F1 _]; subst. exfalso. unfold all_known in F1. apply Forall_Exists_neg in F1. contradiction.
Qed.
Lemma no_hybrids : forall decode file rest done, (forall s, In s rest -> s_kind s = STable -> sm_find (str "XRefStm") (s_trailer s) = None) ->
  read_hybrids parser_dictionary decode file done rest = Ok (done ++ rest).
Proof.
  intros decode file. induction rest as [|s rest IH]; intros done H; cbn [read_hybrids]; [rewrite app_nil_r; reflexivity|].
  assert (E : read_hybrids parser_dictionary decode file (done ++ [s]) rest = Ok (done ++ s :: rest)).
  { rewrite IH by (intros x Hx; apply H; right; exact Hx). rewrite <- app_assoc. reflexivity. }
  destruct (s_kind s) eqn:Ek; [|exact E|exact E]. unfold sm_contains. rewrite (H s (or_introl eq_refl) Ek). exact E.
Qed.
Lemma likes_in : forall revs c s, Forall2 section_like revs c -> In s c -> exists r, In r revs /\ section_like r s.
Proof.
  intros revs c s H. induction H as [|r x revs c Hl H IH]; intros Hin; [destruct Hin|]. destruct Hin as [<-|Hin]; [exists r; split; [left; reflexivity|exact Hl]|].
  destruct (IH Hin) as (r' & Hr & L). exists r'. split; [right; exact Hr|exact L].
Qed.
Lemma chain_reads : forall decode file {strict} offset revs fuel, history decode file strict offset revs -> types_given revs -> Forall all_known revs -> (List.length revs <= fuel)%nat ->
  exists c, read_chain parser_dictionary decode fuel file (Z.of_N offset) = Ok c /\ Forall2 section_like revs c.
Proof.
  intros decode file strict offset revs fuel H Hty F Hf. destruct (history_reads decode file offset revs H Hty fuel [] Hf) as [(c & E & L) _]; [exact F|].
  exists c. split; [|exact L]. unfold read_chain. rewrite E. cbn [rbind app]. rewrite no_hybrids.
  - cbn [app rbind]. destruct c as [|s c]; [reflexivity|]. cbn [move_virtual]. inversion L as [|r ? revs' ? L1 _]; subst.
    pose proof (sl_kind _ _ L1). destruct (s_kind s); [reflexivity|reflexivity|congruence].
  - intros s Hs Hk. destruct (likes_in _ _ _ L Hs) as (r & _ & L1). exact (sl_table _ _ L1 Hk).
Qed.
Lemma known_all : forall revs, rows_known revs -> Forall all_known revs.
Proof.
  intros revs H. apply Forall_forall. intros r Hr. unfold all_known. apply Forall_forall. intros q Hq Hres. apply in_map_iff in Hq. destruct Hq as ([n q'] & <- & Hin).
  destruct q'; try (destruct Hres; fail). exact (H r n type Hr Hin).
Qed.
Lemma file_start : forall decode file {strict} v revs, follows decode file strict v revs -> exists offset,
  history decode file strict offset revs /\ read_header file = Ok v /\ last_xref_offset file = Ok (Z.of_N offset).
Proof.
  intros decode file strict v revs (offset & Hr & (e & rest & He & Ef) & (before & white & e1 & ds & e2 & e3 & Hw & He1 & Hds & He2 & He3 & El & Hl) & Hb).
  exists offset. split; [exact Hr|]. split; [rewrite Ef; apply header_read; exact He|].
  assert (Ho : offset < 2 ^ 63).
  { assert (Hat : exists text rest', stands_at file offset text rest').
    { assert (Hs : exists r, section_at decode file strict offset r) by (destruct Hr; eauto).
      destruct Hs as (r & [text r0 g more Hat _ _ _ _|n g m data body w1 w2 w3 size index rows own Hat _ _ _ _ _ _ _ _ _ _]); [eauto|].
      destruct Hat as (dn & g1 & dg & g2 & g3 & txt & g4 & rest' & Hat & _). eauto. }
    destruct Hat as (text & rest' & b & Eb & <-). rewrite Eb, app_length in Hb. lia. }
  rewrite El. apply offset_read; assumption.
Qed.
Lemma opened_any : forall decode file {strict} v revs left fuel, follows decode file strict v revs -> types_given revs -> rows_known revs -> (List.length revs <= fuel)%nat ->
  exists c, initialize parser_dictionary decode fuel left file = Ok (v, ByTable c) /\ Forall2 section_like revs c.
Proof.
  intros decode file strict v revs left fuel H Hty Hk Hf. destruct (file_start _ _ _ _ H) as (offset & Hr & E1 & E2).
  destruct (chain_reads decode file offset revs fuel Hr Hty (known_all _ Hk) Hf) as (c & Ec & L). exists c. split; [|exact L].
  unfold initialize. rewrite E1. cbn [rbind]. rewrite E2. cbn [rbind]. rewrite Ec. reflexivity.
Qed.

(** ** which entry counts *)
Lemma listed_decide : forall n r, (exists q, In (n, q) (v_rows r)) \/ forall q, ~ In (n, q) (v_rows r).
Proof.
  intros n r. induction (v_rows r) as [|[m q] l IH]; [right; intros q []|]. destruct (N.eq_dec m n) as [->|Hm]; [left; exists q; left; reflexivity|].
  destruct IH as [[x H]|H]; [left; exists x; right; exact H|right]. intros x [E|Hin]; [apply pair_equal_spec in E; destruct E; congruence|exact (H x Hin)].
Qed.
Lemma like_gen : forall n q e, entry_like n q e -> xgen e = row_generation q.
Proof. intros n q e [_ H]. destruct q; cbn [row_generation]; [apply H|apply H|apply H|destruct H]. Qed.
Lemma last_found : forall revs c n q, Forall2 section_like revs c -> listed_last revs n q ->
  exists e, chain_entry n (row_generation q) c = Some e /\ entry_like n q e.
Proof.
  intros revs c n q H (newer & s & older & -> & Hin & Hn). revert c H. induction newer as [|x newer IH]; intros c H; inversion H as [|? y ? c' Hl H']; subst; cbn [chain_entry].
  - destruct (sl_listed _ _ Hl n q Hin) as (e & E & Le). exists e. rewrite E, (like_gen _ _ _ Le), N.eqb_refl. auto.
  - rewrite (sl_others _ _ Hl n) by (intros r; apply Hn; left; reflexivity). apply IH; [|exact H']. intros z r Hz. apply Hn. right. exact Hz.
Qed.
Lemma found_last : forall revs c n g e, Forall2 section_like revs c -> chain_entry n g c = Some e ->
  exists newer s older q, revs = newer ++ s :: older /\ In (n, q) (v_rows s) /\ entry_like n q e /\ row_generation q = g /\
    forall x p, In x newer -> In (n, p) (v_rows x) -> row_generation p <> g.
Proof.
  intros revs c n g e H. induction H as [|r s revs c Hl H IH]; intros E; cbn [chain_entry] in E; [discriminate|].
  assert (Next : (forall p, In (n, p) (v_rows r) -> row_generation p <> g) -> chain_entry n g c = Some e ->
    exists newer s older q, r :: revs = newer ++ s :: older /\ In (n, q) (v_rows s) /\ entry_like n q e /\ row_generation q = g /\
      forall x p, In x newer -> In (n, p) (v_rows x) -> row_generation p <> g).
  { intros Hp E'. destruct (IH E') as (newer & s' & older & q & -> & A & B & C & D). exists (r :: newer), s', older, q.
    split; [reflexivity|]. split; [exact A|]. split; [exact B|]. split; [exact C|]. intros x p [<-|Hx]; [apply Hp|apply D; exact Hx]. }
  destruct (listed_decide n r) as [[q Hq]|Hq].
  - destruct (sl_listed _ _ Hl n q Hq) as (e' & Ef & Le). rewrite Ef, (like_gen _ _ _ Le) in E. destruct (N.eqb_spec (row_generation q) g) as [Eg|Eg].
    + injection E as ->. exists [], r, revs, q. split; [reflexivity|]. split; [exact Hq|]. split; [exact Le|]. split; [exact Eg|]. intros x p [].
    + apply Next; [|exact E]. intros p Hp. destruct (sl_listed _ _ Hl n p Hp) as (e2 & Ef2 & Le2). rewrite Ef in Ef2. injection Ef2 as <-.
      rewrite <- (like_gen _ _ _ Le2), (like_gen _ _ _ Le). exact Eg.
  - rewrite (sl_others _ _ Hl n Hq) in E. apply Next; [|exact E]. intros p Hp. destruct (Hq p Hp).
Qed.
Lemma last_once : forall revs c n q1 q2, Forall2 section_like revs c -> listed_last revs n q1 -> listed_last revs n q2 -> q1 = q2.
Proof.
  intros revs c n q1 q2 H (a1 & s1 & o1 & E1 & I1 & N1) (a2 & s2 & o2 & E2 & I2 & N2). revert a2 a1 c H E1 E2 N1 N2.
  induction revs as [|r revs IH]; intros a2 a1 c H E1 E2 N1 N2; [destruct a1; discriminate|]. inversion H as [|? ? ? c' Hl H']; subst.
  destruct a1 as [|x1 a1]; destruct a2 as [|x2 a2]; cbn [app] in E1, E2; injection E1 as E1 E1'; injection E2 as E2 E2'.
  - subst s1 s2. assert (Hd := sl_once _ _ Hl). clear - Hd I1 I2. induction (v_rows r) as [|[m q] l IH]; [destruct I1|]. cbn [map fst] in Hd. inversion Hd as [|? ? Hm Hd']; subst.
    assert (K : forall q', In (n, q') l -> m <> n) by (intros q' Hin ->; apply Hm; apply in_map_iff; exists (n, q'); auto).
    destruct I1 as [E1|I1]; destruct I2 as [E2|I2]; try (apply pair_equal_spec in E1; destruct E1); try (apply pair_equal_spec in E2; destruct E2); subst; try congruence.
    + exfalso. exact (K _ I2 eq_refl).
    + exfalso. exact (K _ I1 eq_refl).
    + exact (IH I1 I2 Hd').
  - subst x2 s1. exfalso. exact (N2 r q1 (or_introl eq_refl) I1).
  - subst x1 s2. exfalso. exact (N1 r q2 (or_introl eq_refl) I2).
  - apply (IH a2 a1 c' H' E1' E2'); intros z q Hz; [apply N1|apply N2]; right; exact Hz.
Qed.
(** when the object of a reference is not the one that its number has now, the reference leads nowhere *)
Lemma leads_nowhere : forall revs c n g, Forall2 section_like revs c -> number_kept revs n g ->
  (forall q, in_use q -> row_generation q = g -> ~ listed_last revs n q) -> resolve_entry n g c = None.
Proof.
  intros revs c n g H Hk Hn. unfold resolve_entry. destruct (chain_entry n g c) as [e|] eqn:E; [|reflexivity].
  destruct (found_last _ _ _ _ _ H E) as (newer & s & older & q & -> & Hin & (_ & Le) & Hg & Hnew).
  destruct q as [o g'|g'|st i|t]; cbn [row_generation] in Hg; [|destruct Le as (_ & k & ->); reflexivity| |destruct Le].
  - exfalso. apply (Hn (AtOffset o g') I Hg). exists newer, s, older. split; [reflexivity|]. split; [exact Hin|].
    intros x p Hx Hp. exact (Hnew x p Hx Hp (Hk newer s older (AtOffset o g') eq_refl Hin I Hg x p Hx Hp)).
  - exfalso. apply (Hn (Packed st i) I Hg). exists newer, s, older. split; [reflexivity|]. split; [exact Hin|].
    intros x p Hx Hp. exact (Hnew x p Hx Hp (Hk newer s older (Packed st i) eq_refl Hin I Hg x p Hx Hp)).
Qed.
Lemma resolve_offset : forall revs c n o g, Forall2 section_like revs c -> listed_last revs n (AtOffset o g) ->
  exists e, resolve_entry n g c = Some e /\ xnum e = n /\ xgen e = g /\ xdata e = KUsed (Z.of_N o) true.
Proof.
  intros revs c n o g H Hl. destruct (last_found _ _ _ _ H Hl) as (e & E & (A & B & C)). cbn [row_generation] in E. exists e. unfold resolve_entry. rewrite E, C. auto.
Qed.
Lemma resolve_packed : forall revs c n s i, Forall2 section_like revs c -> listed_last revs n (Packed s i) ->
  exists e, resolve_entry n 0 c = Some e /\ xdata e = KComp s i.
Proof.
  intros revs c n s i H Hl. destruct (last_found _ _ _ _ H Hl) as (e & E & (A & B & C)). cbn [row_generation] in E. exists e. unfold resolve_entry. rewrite E, C. auto.
Qed.

(** ** object streams *)
Lemma look_items_end : forall txt l, items_text txt l -> look_ok txt.
Proof.
  intros txt l H. induction H as [g Hg|g txt o more l Hg Ho Hm IH Hs].
  - apply object_end_look. apply oe_eof. exact Hg.
  - apply look_gap; [exact Hg|]. eapply look_object; [exact Ho|exact Hs|]. apply look_head. exact IH.
Qed.
Lemma first_item : forall rl txt o l, items_text txt (o :: l) -> exists rest, parse_direct parser_dictionary rl txt = Ok (o, rest).
Proof.
  intros rl txt o l H. inversion H as [|g t o' more l' Hg Ho Hm Hs]; subst. exists more. apply parse_gap; [exact Hg|]. unfold parse_direct.
  apply (proj1 (reads_text rl)); [exact Ho|rewrite app_length; lia|]. split; [exact Hs|]. exact (look_items_end _ _ Hm).
Qed.
Lemma pairs_read : forall text places, pairs_text text places -> forall fuel i rest g, gap g -> (List.length places <= fuel)%nat ->
  Forall (fun p => snd p < 2 ^ 63) places ->
  read_objstm_headers parser_dictionary fuel i (i + N.of_nat (List.length places)) (g ++ text ++ rest) = Ok (map (fun p => (fst p, Z.of_N (snd p))) places).
Proof.
  intros text places H. induction H as [|dn n g1 dp place g2 more l Nn Hn Hg1 H1 Np Hg2 H2 H IH]; intros fuel i rest g Hg Hf Hb.
  - destruct fuel; cbn [read_objstm_headers List.length map]; replace (i + N.of_nat 0 <=? i) with true by lia; reflexivity.
  - destruct fuel as [|fuel]; [cbn [List.length] in Hf; lia|]. cbn [List.length] in *. cbn [read_objstm_headers map fst snd].
    replace (i + N.of_nat (S (List.length l)) <=? i) with false by lia. unfold read_objstm_header. rewrite <- !app_assoc. inversion Hb as [|? ? Hp Hb']; subst. cbn [snd] in Hp.
    rewrite (expect_int _ g dn n) by (first [assumption|apply gap_token_ends; assumption]). cbn [rbind].
    rewrite (expect_int _ g1 dp place) by (first [assumption|apply gap_token_ends; assumption]). cbn [rbind].
    rewrite (number_stoll dn n Nn Hn), (number_stoll dp place Np Hp). cbn [rbind]. unfold to_u64. replace (Z.of_N n <? 0)%Z with false by lia. cbn [rbind]. rewrite N2Z.id.
    replace (i + N.of_nat (S (List.length l))) with (i + 1 + N.of_nat (List.length l)) by lia.
    assert (E := IH fuel (i + 1) rest g2 Hg2 ltac:(lia) Hb'). rewrite E. reflexivity.
Qed.
Lemma pairs_length : forall text places, pairs_text text places -> (List.length places <= List.length text)%nat.
Proof.
  intros text places H. induction H as [|dn n g1 dp place g2 more l Nn Hn Hg1 H1 Np Hg2 H2 H IH]; [cbn; lia|]. rewrite !app_length. cbn [List.length].
  destruct g1; [congruence|]. cbn [List.length]. lia.
Qed.
Lemma items_nonempty : forall txt o l, items_text txt (o :: l) -> txt <> [].
Proof.
  intros txt o l H E. inversion H as [|g t o' more l' Hg Ho Hm Hs E1]; subst. apply app_eq_nil in E1. destruct E1 as [_ E1]. apply app_eq_nil in E1. destruct E1 as [-> _].
  exact (Nat.nle_succ_0 _ (object_text_nonempty (fun _ _ => Undef) _ _ Ho)).
Qed.
Lemma members_read : forall rl m body members, sm_sorted m -> sm_keys_ok m -> holds_objects m body members ->
  load_object_stream parser_dictionary rl m body = Ok members.
Proof.
  intros rl m body members M1 M2 (first & g & text & rest & places & HF & HN & Eb & Hg & Hp & Hlen & Hm & _ & Hne).
  assert (P : forall (p : N * N) (mem : N * obj), fst p = fst mem /\ (exists behind, items_text (skipn (N.to_nat (first + snd p)) body) (snd mem :: behind)) ->
    first + snd p < N.of_nat (List.length body)).
  { intros p mem (_ & behind & H). apply items_nonempty in H. destruct (N.ltb_spec (first + snd p) (N.of_nat (List.length body))); [assumption|].
    exfalso. apply H. apply skipn_all2. lia. }
  assert (Hpl : Forall (fun p => snd p < 2 ^ 63) places).
  { clear - Hm P Hlen. induction Hm as [|p mem places members H Hm IH]; constructor; [|exact IH]. specialize (P p mem H). lia. }
  assert (Hl : List.length places = List.length members) by (clear - Hm; induction Hm; cbn [List.length]; congruence).
  unfold load_object_stream. destruct body as [|b body'] eqn:Ebody.
  { exfalso. destruct members as [|mem members]; [congruence|]. inversion Hm as [|p ? ? ? H]; subst. specialize (P p mem H). cbn in P. lia. }
  rewrite <- Ebody in *. clear Ebody b body'. unfold find_unsigned.
  rewrite (proj2 (sm_find_in _ _ _ M1 M2 (str_bytes _)) HF), (proj2 (sm_find_in _ _ _ M1 M2 (str_bytes _)) HN). unfold to_u64.
  replace (Z.of_N first <? 0)%Z with false by lia. replace (Z.of_nat (List.length members) <? 0)%Z with false by lia. cbn [rbind]. rewrite N2Z.id.
  unfold read_object_stream. replace (Z.to_N (Z.of_nat (List.length members))) with (0 + N.of_nat (List.length places)) by lia. rewrite Eb at 2.
  rewrite (pairs_read text places Hp) by (first [assumption|rewrite Eb, !app_length; assert (L := pairs_length _ _ Hp); lia]). cbn [rbind].
  clear - Hm P Hlen. induction Hm as [|[a pl] [b o] places members H Hm IH]; [reflexivity|]. cbn [map read_objstm_objects fst snd].
  assert (B := P _ _ H). cbn [fst snd] in B, H. destruct H as (-> & behind & H). change (2 ^ 63) with 9223372036854775808 in Hlen. change (2 ^ 64)%Z with 18446744073709551616%Z.
  replace ((Z.of_N first + Z.of_N pl) mod 18446744073709551616)%Z with (Z.of_N (first + pl)) by (rewrite Z.mod_small; lia).
  replace (Z.of_N (first + pl) <=? Z.of_nat (List.length body))%Z with true by lia.
  replace (Z.to_nat (Z.of_N (first + pl))) with (N.to_nat (first + pl)) by lia.
  destruct (first_item rl _ _ _ H) as (rest & E). rewrite E. cbn [rbind]. rewrite IH. reflexivity.
Qed.

Lemma chain_lists : forall revs c n x r, Forall2 section_like revs c -> In x revs -> In (n, r) (v_rows x) -> exists e, chain_entry n (row_generation r) c = Some e.
Proof.
  intros revs c n x r H. induction H as [|y s revs c Hl H IH]; intros Hx Hr; [destruct Hx|]. cbn [chain_entry]. destruct Hx as [->|Hx].
  - destruct (sl_listed _ _ Hl n r Hr) as (e & E & Le). rewrite E, (like_gen _ _ _ Le), N.eqb_refl. eauto.
  - destruct (IH Hx Hr) as (e & E). rewrite E. destruct (sec_find n s) as [e'|]; [|eauto]. destruct (xgen e' =? row_generation r); eauto.
Qed.
Lemma placed_member : forall c n o members acc, (forall a x, In (a, x) members -> chain_entry a 0 c <> None) -> NoDup (map fst members) -> In (n, o) members ->
  take_member c n members acc = Ok o.
Proof.
  intros c n o. assert (Skip : forall members acc, (forall a x, In (a, x) members -> chain_entry a 0 c <> None) -> ~ In n (map fst members) -> take_member c n members acc = Ok acc).
  { induction members as [|[a x] members IH]; intros acc H Hn; [reflexivity|]. cbn [take_member map fst In] in *. destruct (chain_entry a 0 c) eqn:E; [|exfalso; exact (H a x (or_introl eq_refl) E)].
    destruct (N.eqb_spec a n); [exfalso; tauto|]. apply IH; [|tauto]. intros b y Hb. apply (H b y). right. exact Hb. }
  induction members as [|[a x] members IH]; intros acc H Hd Hin; [destruct Hin|]. cbn [take_member map fst] in *. inversion Hd as [|? ? Ha Hd']; subst.
  destruct (chain_entry a 0 c) eqn:E; [|exfalso; exact (H a x (or_introl eq_refl) E)].
  assert (H' : forall b y, In (b, y) members -> chain_entry b 0 c <> None) by (intros b y Hb; apply (H b y); right; exact Hb).
  destruct Hin as [Eq|Hin].
  - apply pair_equal_spec in Eq. destruct Eq as [-> ->]. rewrite N.eqb_refl. apply Skip; assumption.
  - apply IH; assumption.
Qed.

(** ** objects *)
Section Objects.
Variable decode : list (list N * obj) -> list N -> res (list N).
Variable file : list N.
Variable revs : list revision.
Variable c : chain.
Hypothesis Hlike : Forall2 section_like revs c.
Hypothesis Hrows : forall s n o g, In s revs -> In (n, AtOffset o g) (v_rows s) -> n < 2 ^ 63 /\ g <= 65535.
Hypothesis Hlisted : members_listed decode file revs.

Lemma last_bounds : forall n o g, listed_last revs n (AtOffset o g) -> n < 2 ^ 63 /\ g <= 65535.
Proof. intros n o g (newer & s & older & E & Hin & _). apply (Hrows s n o g); [|exact Hin]. rewrite E. apply in_or_app. right. left. reflexivity. Qed.
Lemma get_at : forall k n o g x, listed_last revs n (AtOffset o g) ->
  (let length_of a b := do y <- get_object decode k file c a b;; match y with OInt z => Ok z | _ => Throw EConversion end in
   load_entry parser_dictionary length_of file {| xnum := n; xgen := g; xdata := KUsed (Z.of_N o) true |} = Ok (n, g, x)) ->
  get_object decode (S k) file c n g = Ok x.
Proof.
  intros k n o g x Hl H. cbn [get_object]. destruct (resolve_offset _ _ _ _ _ Hlike Hl) as (e & E & E1 & E2 & E3). rewrite E, E3.
  assert (Ee : e = {| xnum := n; xgen := g; xdata := KUsed (Z.of_N o) true |}) by (destruct e as [en eg ed]; cbn [xnum xgen xdata] in *; subst; reflexivity). subst e.
  cbv zeta in H. rewrite H. cbn [rbind]. rewrite !N.eqb_refl. reflexivity.
Qed.
Lemma get_plain : forall k n g z, plain_integer file revs n g z -> get_object decode (S k) file c n g = Ok (OInt z).
Proof.
  intros k n g z (o & Hl & Hat). apply (get_at k n o g (OInt z) Hl). cbv zeta. destruct (last_bounds _ _ _ Hl) as [B1 B2].
  apply direct_read; assumption.
Qed.
Lemma get_stream : forall k s members, object_stream decode file revs s members ->
  exists m data body, get_object decode (S (S k)) file c s 0 = Ok (OStream m data) /\ decode m data = Ok body /\ sm_sorted m /\ sm_keys_ok m /\ holds_objects m body members.
Proof.
  intros k s members (o & len & m & data & body & Hl & Hlen & Hat & Hdec & Hh). exists m, data, body.
  assert (M : sm_sorted m /\ sm_keys_ok m).
  { destruct Hat as (dn & g1 & dg & g2 & g3 & txt & g4 & rest' & _ & _ & _ & _ & _ & _ & _ & _ & _ & _ & Ht & _). exact (stream_map _ _ _ _ Ht). }
  destruct M as [M1 M2]. split; [|repeat split; assumption]. apply (get_at (S k) s o 0 (OStream m data) Hl). cbv zeta. destruct (last_bounds _ _ _ Hl) as [B1 B2].
  apply (object_read_section len _ file o s 0 m data Hat); [|exact B1|exact B2]. intros a b z Hz. rewrite (get_plain k a b z (Hlen a b z Hz)). reflexivity.
Qed.
Lemma get_member : forall k n o s i members, listed_last revs n (Packed s i) -> object_stream decode file revs s members ->
  (forall a x, In (a, x) members -> chain_entry a 0 c <> None) -> nth_error members (N.to_nat i) = Some (n, o) ->
  get_object decode (S (S (S k))) file c n 0 = Ok o.
Proof.
  intros k n o s i members Hl Hs Hc Hn. destruct (get_stream k s members Hs) as (m & data & body & E & Hdec & M1 & M2 & Hh).
  destruct (resolve_packed _ _ _ _ _ Hlike Hl) as (e & Ee & Ed). remember (S (S k)) as k2. cbn [get_object]. rewrite Ee, Ed, E. cbn [rbind]. rewrite Hdec. cbn [rbind].
  rewrite (members_read _ m body members M1 M2 Hh). cbn [rbind]. apply placed_member; [exact Hc| |exact (nth_error_In _ _ Hn)].
  destruct Hh as (first & g & text & rest & places & _ & _ & _ & _ & _ & _ & _ & Hd & _). exact Hd.
Qed.
Lemma get_packed : forall k n o, packed_object decode file revs n o -> get_object decode (S (S (S k))) file c n 0 = Ok o.
Proof.
  intros k n o (s & i & members & Hl & Hs & Hn). apply (get_member k n o s i members Hl Hs); [|exact Hn].
  intros a x Ha. destruct (Hlisted s members a x Hs Ha) as (y & r & Hy & Hr & Hg). destruct (chain_lists revs c a y r Hlike Hy Hr) as (e' & E'). rewrite Hg in E'. congruence.
Qed.
Lemma get_body : forall k n o g m data len, listed_last revs n (AtOffset o g) -> object_at (stream_text len) file o n g (OStream m data) ->
  (forall a b z, len a b = Some z -> get_object decode k file c a b = Ok (OInt z)) -> get_object decode (S k) file c n g = Ok (OStream m data).
Proof.
  intros k n o g m data len Hl Hat Hlen. apply (get_at k n o g (OStream m data) Hl). cbv zeta. destruct (last_bounds _ _ _ Hl) as [B1 B2].
  apply (object_read_section len _ file o n g m data Hat); [|exact B1|exact B2]. intros a b z Hz. rewrite (Hlen a b z Hz). reflexivity.
Qed.
Lemma get_length : forall k n g z, length_object decode file revs n g z -> get_object decode (S (S (S k))) file c n g = Ok (OInt z).
Proof. intros k n g z [H|[-> H]]; [apply get_plain; exact H|apply get_packed; exact H]. Qed.
Lemma get_offset : forall k n o g x, listed_last revs n (AtOffset o g) -> object_at (any_body decode file revs) file o n g x ->
  get_object decode (S (S (S (S k)))) file c n g = Ok x.
Proof.
  intros k n o g x Hl Hat. apply (get_at (S (S (S k))) n o g x Hl). cbv zeta. destruct (last_bounds _ _ _ Hl) as [B1 B2].
  apply (object_read (any_body decode file revs)); auto.
  - intros t [Ht|(len & Hlen & Ht)]; [intros ->; exact (Nat.nle_succ_0 _ (object_text_nonempty (fun _ _ => Undef) _ _ Ht))|].
    refine (proj1 (body_gap len (fun a b => match len a b with Some z => Ok z | None => Undef end) t x Ht _)). intros a b z ->. reflexivity.
  - intros t [Ht|(len & Hlen & Ht)] g3 g4 rest H3 H4 Hd Hr; [apply parse_before_word; auto; cbn; tauto|].
    refine (proj2 (body_gap len _ t x Ht _) g3 g4 rest H3 H4 Hd Hr). intros a b z Hz. rewrite (get_length k a b z (Hlen a b z Hz)). reflexivity.
Qed.
Lemma get_nothing : forall k n g, number_kept revs n g -> (forall q, in_use q -> row_generation q = g -> ~ listed_last revs n q) ->
  get_object decode (S k) file c n g = Ok ONull.
Proof. intros k n g Hk Hn. cbn [get_object]. rewrite (leads_nowhere revs c n g Hlike Hk Hn). reflexivity. Qed.
End Objects.

Lemma row_number : forall decode file {strict} offset revs, history decode file strict offset revs ->
  forall s n o g, In s revs -> In (n, AtOffset o g) (v_rows s) -> n < 2 ^ 63 /\ g <= 65535.
Proof.
  intros decode file strict offset revs H. assert (S : forall s offset n o g, section_at decode file strict offset s -> In (n, AtOffset o g) (v_rows s) -> n < 2 ^ 63 /\ g <= 65535).
  { intros s off n o g [text r0 g0 more Hat Hs Hg Hm Hx|n0 g0 m data body w1 w2 w3 size index rows own Hat Hn Hg Hdec HW HS HI Hsub Hd Hself Hown] Hin; cbn [v_rows] in Hin.
    - apply in_map_iff in Hin. destruct Hin as ([a [o' g'|g']] & E & Hin); cbn [fst snd table_row] in E; apply pair_equal_spec in E; destruct E as [-> E]; [|discriminate].
      injection E as -> ->. exact (section_row _ _ _ _ Hs Hin).
    - clear - Hsub Hin. induction Hsub as [|first texts rows index data l Hr H1 H2 Hsub IH]; [destruct Hin|]. apply in_app_or in Hin. destruct Hin as [Hin|Hin]; [|exact (IH Hin)].
      rewrite count_combine in Hin. change (N.of_nat 0) with 0 in Hin. rewrite N.add_0_r in Hin. clear - Hr H1 Hin.
      revert first H1 Hin. induction Hr as [|txt q texts rows Hq Hr IH]; intros first H1 Hin; [destruct Hin|]. cbn [count_up List.length] in *. destruct Hin as [E|Hin]; [|apply (IH (first + 1)); [lia|exact Hin]].
      apply pair_equal_spec in E. destruct E as [-> ->]. destruct Hq as (f1 & f2 & f3 & _ & _ & _ & _ & _ & _ & _ & _ & _ & _ & _ & Hg). split; [lia|exact Hg]. }
  induction H as [offset r Hs Hp|offset r prev older Hs Hp Ho IH]; intros s n o g Hin Hr.
  - destruct Hin as [<-|[]]. exact (S r offset n o g Hs Hr).
  - destruct Hin as [<-|Hin]; [exact (S r offset n o g Hs Hr)|exact (IH s n o g Hin Hr)].
Qed.

(** ** rows without a type *)
Definition freed (n : N) (e : xentry) : Prop := xnum e = n /\ exists k, xdata e = KFree k.
Lemma untyped_row : forall w2 w3 txt q first i s, row_data 0 w2 w3 txt q -> first + i < 2 ^ 63 -> i < 2 ^ 31 ->
  exists e, freed (first + i) e /\ read_stream_entry (widths_of 0 w2 w3) (Z.of_N first) (Z.of_N i) (txt ++ s) = Ok (e, s).
Proof.
  intros w2 w3 txt q first i s (f1 & f2 & f3 & -> & L1 & L2 & L3 & Hb & B1 & B2 & B3 & Hq) H1 H2.
  destruct f1; [|discriminate]. cbn [app row_type] in *.
  unfold all_bytes in Hb. apply Forall_app in Hb. destruct Hb as [Hb2 Hb3].
  unfold read_stream_entry, widths_of. rewrite !Nat2Z.id, <- !app_assoc. cbn [read_field rbind].
  rewrite (field_read f2) by assumption. cbn [rbind]. rewrite (field_read f3) by assumption. cbn [rbind].
  rewrite number_of_row by assumption. cbn [rbind]. change (0 =? 0)%Z with true. cbv iota. unfold to_u16.
  assert (G : big_endian f3 <= 65535) by (destruct q as [o g|g|st ix|t]; [destruct Hq as (_ & _ & <- & Hg); exact Hg|destruct Hq; discriminate|destruct Hq; discriminate|lia]).
  replace (Z.of_N (big_endian f3) <? 0)%Z with false by lia. replace (Z.of_N (big_endian f3) <=? 65535)%Z with true by lia. cbn [rbind].
  eexists. split; [|reflexivity]. split; [reflexivity|]. eexists. reflexivity.
Qed.
Lemma untyped_rows : forall w2 w3 texts rows, Forall2 (row_data 0 w2 w3) texts rows ->
  forall first i s t, first + i + N.of_nat (List.length rows) <= 2 ^ 63 -> i + N.of_nat (List.length rows) < 2 ^ 31 ->
  exists es, Forall2 (fun p e => freed (fst p) e) (count_up (first + i) rows) es /\
     read_stream_rows (widths_of 0 w2 w3) (Z.of_N first) (List.length rows) (Z.of_N i) (concat texts ++ s) t = Ok (add_all es t, s).
Proof.
  intros w2 w3 texts rows H. induction H as [|txt q texts rows Hq H IH]; intros first i s t H1 H2; cbn [List.length concat app read_stream_rows count_up] in *.
  - exists []. split; [constructor|reflexivity].
  - rewrite <- app_assoc. destruct (untyped_row w2 w3 txt q first i (concat texts ++ s) Hq ltac:(lia) ltac:(lia)) as (e & He & E). rewrite E. cbn [rbind].
    assert (I : (int32_max <=? Z.of_N i)%Z = false) by (unfold int32_max; change (2 ^ 31) with 2147483648 in H2; change (2 ^ 31 - 1)%Z with 2147483647%Z; lia).
    rewrite I. replace (Z.of_N i + 1)%Z with (Z.of_N (i + 1)) by lia. destruct (IH first (i + 1) s (xadd e t) ltac:(lia) ltac:(lia)) as (es & Hes & Ees).
    exists (e :: es). split; [|exact Ees]. constructor; [exact He|]. replace (first + i + 1) with (first + (i + 1)) by lia. exact Hes.
Qed.
Lemma untyped_index : forall w2 w3 index data rows, subsections_data 0 w2 w3 index data rows ->
  exists zs, int_values index = Ok zs /\ forall t, exists es, Forall2 (fun p e => freed (fst p) e) rows es /\ read_stream_index (widths_of 0 w2 w3) zs data t = Ok (add_all es t).
Proof.
  intros w2 w3 index data rows H. induction H as [|first texts rows index data l Hr H1 H2 H (zs & Ez & IH)].
  - exists []. split; [reflexivity|]. intros t. exists []. split; [constructor|reflexivity].
  - exists (Z.of_N first :: Z.of_nat (List.length rows) :: zs). split; [cbn [int_values int_value rbind]; rewrite Ez; reflexivity|]. intros t.
    cbn [read_stream_index]. rewrite Nat2Z.id, count_combine. change (N.of_nat 0) with 0. rewrite N.add_0_r.
    destruct (untyped_rows w2 w3 texts rows Hr first 0 data t ltac:(lia) ltac:(lia)) as (es & Hes & Ees). change (Z.of_N 0) with 0%Z in Ees. rewrite N.add_0_r in Hes. rewrite Ees. cbn [rbind].
    destruct (IH (add_all es t)) as (es2 & Hes2 & Ees2). exists (es ++ es2). split; [apply Forall2_app; assumption|].
    rewrite Ees2. unfold add_all. rewrite fold_left_app. reflexivity.
Qed.
Lemma xadd_in : forall e x t, In x (xadd e t) -> x = e \/ In x t.
Proof.
  intros e x. induction t as [|y t IH]; cbn [xadd]; intros H; [destruct H as [<-|[]]; auto|].
  repeat (match type of H with context [if ?b then _ else _] => destruct b end); cbn [In] in *; intuition.
Qed.
Lemma all_in : forall es t x, In x (add_all es t) -> In x es \/ In x t.
Proof.
  induction es as [|e es IH]; intros t x H; [right; exact H|]. cbn [add_all fold_left] in H. fold (add_all es (xadd e t)) in H. destruct (IH _ _ H) as [H1|H1]; [left; right; exact H1|].
  apply xadd_in in H1. destruct H1 as [->|H1]; [left; left; reflexivity|right; exact H1].
Qed.
Lemma untyped_opened : forall decode file {strict} v r left fuel n0 g0 l, follows decode file strict v [r] -> v_self r = Some (n0, g0) ->
  In (str "W", OArr (OInt 0 :: l)) (v_trailer r) -> (1 <= fuel)%nat ->
  exists c, initialize parser_dictionary decode fuel left file = Ok (v, ByTable c) /\ forall n g, n <> n0 -> resolve_entry n g c = None.
Proof.
  intros decode file strict v r left fuel n0 g0 l H Hself HW0 Hf. destruct (file_start _ _ _ _ H) as (offset & Hr & E1 & E2).
  inversion Hr as [off r' Hs Hp Eo El|off r' prev older Hs Hp Ho Eo El]; [|inversion Ho]. subst off r'.
  destruct (section_trailer _ _ _ _ Hs) as [M1 M2].
  destruct Hs as [text r0 g more Hat Hs Hg Hm Hx|n g m data body w1 w2 w3 size index rows own0 Hat Hn Hg Hdec HW HS HI Hsub Hd Hl Hown]; [discriminate|].
  cbn [v_self v_trailer v_rows] in *. injection Hself as -> ->.
  assert (EW : sm_find (str "W") m = Some (OArr [OInt (Z.of_nat w1); OInt (Z.of_nat w2); OInt (Z.of_nat w3)])) by (apply sm_find_in; auto using str_bytes).
  assert (EW0 : sm_find (str "W") m = Some (OArr (OInt 0 :: l))) by (apply sm_find_in; auto using str_bytes).
  assert (w1 = 0%nat). { assert (Z.of_nat w1 = 0%Z) by congruence. lia. } subst w1.
  destruct (object_read_section (fun _ _ => None) opening_length file offset n0 g0 m data Hat ltac:(discriminate) Hn Hg) as [(rest & E) _].
  destruct (untyped_index w2 w3 index body rows Hsub) as (zs & Ez & R). destruct (R []) as (es & Hes & Ees).
  assert (Hfree : forall e, In e (add_all es []) -> exists k, xdata e = KFree k).
  { intros e He. apply all_in in He. destruct He as [He|[]]. clear - Hes He. induction Hes as [|p e' rows es Hp Hes IH]; [destruct He|]. destruct He as [->|He]; [apply Hp|exact (IH He)]. }
  set (sec := {| s_kind := SStream; s_entries := add_all es []; s_hybrid := None; s_trailer := m |}).
  set (own := {| s_kind := SVirtual; s_entries := [{| xnum := n0; xgen := g0; xdata := KUsed (-1) true |}]; s_hybrid := None; s_trailer := [] |}).
  assert (ES : sm_find (str "Size") m = Some (OInt size)) by (apply sm_find_in; auto using str_bytes).
  assert (Hn0 : names_self n0 g0 (add_all es []) = false).
  { destruct (names_self n0 g0 (add_all es [])) eqn:En; [|reflexivity]. unfold names_self in En. apply existsb_exists in En. destruct En as (e & He & En).
    destruct (Hfree e He) as (k & Ek). rewrite Ek in En. discriminate. }
  assert (Eown : chain_entry n0 g0 [own] = Some {| xnum := n0; xgen := g0; xdata := KUsed (-1) true |}).
  { cbn [chain_entry]. rewrite find_own by reflexivity. unfold own, xfind. cbn [s_entries find xnum]. rewrite N.eqb_refl. cbn [xgen]. rewrite N.eqb_refl. reflexivity. }
  assert (P : parse_stream_section decode [] n0 g0 m data = Ok ([own], sec)).
  { unfold parse_stream_section, find_ints, find_int, sm_contains. rewrite EW, ES. cbn [int_values int_value rbind].
    assert (Q : (do index <- (if match sm_find (str "Index") m with Some _ => true | None => false end then
                   do l <- match sm_find (str "Index") m with Some (OArr l) => int_values l | Some (ORef _ _) => Throw ENotInitialized | Some _ => Throw EConversion | None => Throw EGeneral end;; Ok (Some l)
                 else Ok None);;
                 do body <- decode m data;; parse_xref_stream [Z.of_nat 0; Z.of_nat w2; Z.of_nat w3] index size body) = Ok (add_all es [])).
    { destruct HI as [HI|[HI ->]].
      - assert (EI : sm_find (str "Index") m = Some (OArr index)) by (apply sm_find_in; auto using str_bytes). rewrite EI, Ez. cbn [rbind]. rewrite Hdec. cbn [rbind]. exact Ees.
      - rewrite (absent_find (str "Index") m M1 M2 (str_bytes _) HI). cbn [rbind]. rewrite Hdec. cbn [rbind]. cbn [int_values int_value rbind] in Ez. apply Ok_inj in Ez. subst zs. exact Ees. }
    apply rbind_ok in Q. destruct Q as (ix & Q1 & Q). rewrite Q1. cbn [rbind]. apply rbind_ok in Q. destruct Q as (bd & Q2 & Q). rewrite Q2. cbn [rbind]. rewrite Q. cbn [rbind].
    rewrite Hn0. cbv zeta. change (chain_entry n0 g0 []) with (@None xentry). cbv iota. cbn [app]. fold own. rewrite Eown. reflexivity. }
  assert (C : read_chain parser_dictionary decode fuel file (Z.of_N offset) = Ok [sec; own]).
  { destruct fuel as [|fuel]; [lia|]. unfold read_chain. cbn [read_sections]. unfold read_section. rewrite (heading_peek _ _ _ E). cbn [rbind]. change (ttype_eqb TyInt TyXref) with false. cbv iota.
    rewrite E. cbn [rbind]. rewrite P. cbn [rbind sec s_trailer]. unfold sm_contains. rewrite (absent_find (str "Prev") m M1 M2 (str_bytes _) Hp). cbn [app rbind]. reflexivity. }
  exists [sec; own]. split; [unfold initialize; rewrite E1; cbn [rbind]; rewrite E2; cbn [rbind]; rewrite C; reflexivity|].
  intros n g Hne. unfold resolve_entry. cbn [chain_entry].
  assert (Eo : sec_find n own = None) by (unfold own, sec_find, xfind; cbn [s_entries find xnum s_kind s_hybrid]; replace (n0 =? n) with false by lia; reflexivity).
  rewrite Eo. rewrite find_own by reflexivity. cbn [sec s_entries]. destruct (xfind n (add_all es [])) as [e|] eqn:Ef; [|reflexivity].
  destruct (xgen e =? g); [|reflexivity]. unfold xfind in Ef. apply find_some in Ef. destruct (Hfree e (proj1 Ef)) as (k & ->). reflexivity.
Qed.

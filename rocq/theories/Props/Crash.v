(** C89: a save that was interrupted. *)
From Coq Require Import List NArith ZArith Bool Lia String Sorted.
From Coq Require Import List.
From Verif.Model Require Import Base Char Numbers SMap Object Token Lines Parser Arith Containers Xref StartXref Header FileWrite Chain Rebuild Update.
From Verif.Spec Require Import Strings Grammar Xref FileWrite Chain Update Rebuild Crash.
From Verif.Proof Require Import Tac Numbers Parser Writer Xref StartXref FileWrite Rebuild Crash.
From Verif.Proof Require Update.
From Verif.Props Require Import Update.
Import ListNotations.
Local Open Scope N_scope.

(** A program that stops after it has appended some of the changed objects, in front of the next one or of the table, leaves a file that
    opens.  Every object is there: the ones already appended in their new state, all others as the last save left them. *)
Theorem C89_between_objects_partial : forall decode fuel left v file j m s r done todo file', (forall m b, decode m b <> NoFuel) ->
  history v file j m -> updatable s r -> update_objects (s :: r) (done ++ todo) -> plain (done ++ todo) -> done <> [] ->
  write_incremental file (s :: r) = Ok file' -> (Z.of_nat (List.length file') < 2 ^ 63)%Z ->
  exists cut rest st, file' = cut ++ match todo with (n, g, _) :: _ => object_heading n g | [] => [10] ++ str "xref" ++ [10] end ++ rest /\
    initialize parser_dictionary decode fuel left cut = Ok (v, BySearch st) /\ shows cut st (j ++ done) /\ keeps_document st m.
Proof.
  intros decode fuel left v file j m s r done todo file' Hdec Hh Hu Ho Hpl Hne Hw Hfit. destruct (history_holds v file j m Hh) as (w0 & m0 & M1 & M2 & M3).
  destruct (update_written file s r _ file' Hu Ho Hw) as (t & m2 & off & E1 & E2 & E3 & E4 & E5 & E6). rewrite <- E1 in Hpl.
  destruct (section_written _ t m2 file' off E2 Hpl E3 E4 E5 Hfit) as (w1 & table & m' & W1 & W2 & W3 & W4 & (y & Wy) & _). rewrite E1 in W1.
  apply Forall2_app_inv_l in W1. destruct W1 as (d1 & t1 & F1 & F2 & ->). apply Forall_app in W2 as [Fd Ft].
  destruct (after_objects v file w0 (Some m0) d1 M1 Fd) as (text & lead & evs & Ea & Hp & Hl & H13 & Te & Eo & Et).
  set (cut := file ++ [10] ++ text_of d1). exists cut.
  assert (Hend : exists z, text_of d1 = z ++ str "endobj" ++ [10]).
  { destruct d1 as [|a d1]; [inversion F1; congruence|]. destruct (objects_pieces0 (a :: d1) 0 [] ltac:(discriminate) li_nil Fd) as (z & _ & Ez & _). eauto. }
  assert (Hp2 : pieces 0 (text ++ lead ++ [10]) evs).
  { rewrite <- (app_nil_r evs). apply pieces_app; [exact Hp| |specialize (Te []); exact Te]. apply (pieces_lf _ lead [] [] Hl H13). constructor. }
  destruct (search_opens decode fuel left v (text ++ lead ++ [10]) [] evs (j ++ done) m m0) as (st & S1 & S2 & S3); try assumption.
  - apply fe_lead. constructor.
  - rewrite Eo. destruct M1 as (? & ? & ? & _ & _ & _ & _ & _ & _ & Hj & _). apply Forall_app. auto.
  - rewrite Eo. apply Forall2_app; assumption.
  - rewrite app_nil_r, <- Ea. destruct M1 as (? & ? & ? & _ & _ & _ & _ & _ & _ & _ & _ & z & ->). rewrite <- app_assoc.
    apply (header_roundtrip [] v). constructor.
  - rewrite app_nil_r, <- Ea. destruct Hend as (z & ->). replace (file ++ [10] ++ z ++ str "endobj" ++ [10]) with ((file ++ [10] ++ z ++ str "endo" ++ [98]) ++ 106 :: [10]) by (rewrite <- !app_assoc; reflexivity).
    apply (no_end _ 106 true); [reflexivity|discriminate].
  - rewrite app_nil_r, <- Ea in S1, S2. fold cut in S1, S2.
    assert (R : exists rest, file' = cut ++ match todo with (n, g, _) :: _ => object_heading n g | [] => [10] ++ str "xref" ++ [10] end ++ rest).
    { rewrite W4. unfold cut. unfold text_of. rewrite flat_map_app. inversion F2 as [|[[n g] o] [[n2 g2] o2] todo' t1' (K & _) F2']; subst.
      - eexists. cbn [flat_map]. rewrite app_nil_r. rewrite <- !app_assoc. do 3 f_equal. rewrite (app_assoc [10] table), Wy. rewrite <- !app_assoc. reflexivity.
      - cbn [fst] in K. apply pair_equal_spec in K as [-> ->]. cbn [flat_map fst snd]. unfold write_object at 2, object_heading. eexists. rewrite <- !app_assoc. reflexivity. }
    destruct R as (rest & R). exists rest, st. auto.
Qed.

(** Once the table is complete, the file that is left opens with all changes, whether the program stops in front of the last lines, behind
    the offset, or within the end marker. *)
Theorem C89_table_written_partial : forall decode fuel left v file j m s r w file', (forall m b, decode m b <> NoFuel) ->
  history v file j m -> updatable s r -> update_objects (s :: r) w -> plain w ->
  write_incremental file (s :: r) = Ok file' -> (Z.of_nat (List.length file') < 2 ^ 63)%Z ->
  exists body offset, file' = body ++ str "startxref" ++ [10] ++ offset ++ [10] ++ str "%%EOF" ++ [10] /\
    forall part, In part [[]; str "startxref" ++ [10] ++ offset ++ [10]; str "startxref" ++ [10] ++ offset ++ [10] ++ str "%"; str "startxref" ++ [10] ++ offset ++ [10] ++ str "%%";
                          str "startxref" ++ [10] ++ offset ++ [10] ++ str "%%E"; str "startxref" ++ [10] ++ offset ++ [10] ++ str "%%EO"] ->
    exists st, initialize parser_dictionary decode fuel left (body ++ part) = Ok (v, BySearch st) /\ shows (body ++ part) st (j ++ w) /\ keeps_document st (f_trailer s).
Proof.
  intros decode fuel left v file j m s r w file' Hdec Hh Hu Ho Hpl Hw Hfit. destruct (history_holds v file j m Hh) as (w0 & m0 & M1 & M2 & M3).
  destruct (update_written file s r _ file' Hu Ho Hw) as (t & m2 & off & E1 & E2 & E3 & E4 & E5 & E6). rewrite <- E1 in Hpl.
  destruct (section_written _ t m2 file' off E2 Hpl E3 E4 E5 Hfit) as (w1 & table & m' & W1 & W2 & W3 & W4 & _ & (y & Wy) & C1 & C2). rewrite E1 in W1.
  assert (Hkeys : forall k, In k document_keys -> sm_find k m' = sm_find k (f_trailer s)).
  { intros k Hk. destruct (document_key k Hk) as (D1 & D2 & D3 & D4). rewrite W3. destruct (Update.size_written m2 (List.length t) E4 E3) as (_ & _ & _ & Z4). rewrite Z4 by assumption. apply E6, Hk. }
  exists (file ++ [10] ++ text_of w1 ++ [10] ++ table), (to_string_Z off). split; [rewrite W4; rewrite <- !app_assoc; reflexivity|].
  destruct M1 as (text & fin & evs & E & Hp & Hl & H13 & Hhd & Eo & Hj & Et & z & Ez).
  assert (G : forall more tail, continues more (Some m') -> file_end tail -> last_xref_offset (file ++ [10] ++ text_of w1 ++ more ++ tail) = Throw EGeneral ->
    exists st, initialize parser_dictionary decode fuel left (file ++ [10] ++ text_of w1 ++ more ++ tail) = Ok (v, BySearch st) /\ shows (file ++ [10] ++ text_of w1 ++ more ++ tail) st (j ++ w) /\ keeps_document st (f_trailer s)).
  { intros more tail Hc Ht Hx.
    destruct (section_pieces w1 more (Some m') (0 + List.length text + List.length fin + 1)%nat [] Hc W2 li_nil ltac:(cbn; lia)) as (l & P1 & P2 & P3).
    assert (Q : pieces 0 (text ++ fin ++ [10] ++ text_of w1 ++ more) (evs ++ l)) by (apply pieces_app; [exact Hp|apply pieces_lf; assumption|apply percent_end, hd_app, Hhd]).
    assert (Ef : file ++ [10] ++ text_of w1 ++ more ++ tail = (text ++ fin ++ [10] ++ text_of w1 ++ more) ++ tail) by (rewrite E, <- !app_assoc; reflexivity).
    rewrite Ef in *. apply (search_opens decode fuel left v _ tail (evs ++ l) (j ++ w) (f_trailer s) m'); try assumption.
    - rewrite objects_app, Eo, P2. apply Forall_app. auto.
    - rewrite objects_app, Eo, P2. apply Forall2_app; assumption.
    - rewrite last_trailer_app, P3. reflexivity.
    - rewrite <- Ef, Ez, <- app_assoc. apply (header_roundtrip [] v). constructor. }
  set (sx := str "startxref" ++ [10] ++ to_string_Z off ++ [10]) in *.
  assert (Gm : forall tail, file_end tail -> last_xref_offset (file ++ [10] ++ text_of w1 ++ ([10] ++ table ++ sx) ++ tail) = Throw EGeneral ->
    exists st, initialize parser_dictionary decode fuel left ((file ++ [10] ++ text_of w1 ++ [10] ++ table) ++ sx ++ tail) = Ok (v, BySearch st) /\ shows ((file ++ [10] ++ text_of w1 ++ [10] ++ table) ++ sx ++ tail) st (j ++ w) /\ keeps_document st (f_trailer s)).
  { intros tail Ht Hx. assert (Ef : (file ++ [10] ++ text_of w1 ++ [10] ++ table) ++ sx ++ tail = file ++ [10] ++ text_of w1 ++ ([10] ++ table ++ sx) ++ tail) by (rewrite <- !app_assoc; reflexivity).
    rewrite Ef. apply G; [exact C2|exact Ht|exact Hx]. }
  assert (Gc : forall body, no_line_end body -> is_white (last (37 :: body) 0) = false -> last (37 :: body) 0 <> 70 ->
    last_xref_offset (file ++ [10] ++ text_of w1 ++ ([10] ++ table ++ sx) ++ 37 :: body) = Throw EGeneral /\ file_end (37 :: body)).
  { intros body Hb Hwh H70. split; [|exact (fe_comment [] body li_nil Hb)]. rewrite (app_removelast_last (l := 37 :: body) 0) by discriminate. rewrite !app_assoc.
    apply (no_end _ _ false); assumption. }
  intros part [<-|[<-|[<-|[<-|[<-|[<-|[]]]]]]].
  - replace ((file ++ [10] ++ text_of w1 ++ [10] ++ table) ++ []) with (file ++ [10] ++ text_of w1 ++ ([10] ++ table) ++ []) by (rewrite <- !app_assoc; reflexivity).
    apply G; [exact C1|apply fe_lead; constructor|]. rewrite Wy, app_nil_r. replace (file ++ [10] ++ text_of w1 ++ [10] ++ y ++ [62; 62; 10]) with ((file ++ [10] ++ text_of w1 ++ [10] ++ y ++ [62]) ++ 62 :: [10]) by (rewrite <- !app_assoc; reflexivity).
    apply (no_end _ 62 true); [reflexivity|discriminate].
  - rewrite <- (app_nil_r sx). apply Gm; [apply fe_lead; constructor|]. rewrite app_nil_r. unfold sx.
    assert (Hd : exists q c, to_string_Z off = q ++ [c] /\ is_white c = false /\ c <> 70).
    { assert (Hoff : (0 <= off)%Z).
      { unfold append_section in E5. apply rbind_ok in E5. destruct E5 as (a & _ & Ea). destruct (write_objects _ _ _) as [body l2]. apply rbind_ok in Ea. destruct Ea as (b & _ & Ea). apply Ok_inj in Ea.
        apply pair_equal_spec in Ea as [_ E8]. rewrite <- E8. lia. }
      assert (Es : to_string_Z off = to_string_N (Z.to_N off)) by (unfold to_string_Z; replace (off <? 0)%Z with false by lia; reflexivity).
      rewrite Es. destruct (digits_ok (Z.to_N off)) as ((D1 & D2) & _). destruct (exists_last D1) as (q & c & Eq). exists q, c. split; [exact Eq|]. rewrite Eq in D2. apply Forall_app in D2 as [_ D2].
      apply Forall_cons_iff in D2 as [D2 _]. unfold decimal_digit in D2. split; [|lia]. unfold is_white. repeat (apply orb_false_iff; split); lia. }
    destruct Hd as (q & c & -> & Hc1 & Hc2).
    replace (file ++ [10] ++ text_of w1 ++ [10] ++ table ++ str "startxref" ++ [10] ++ (q ++ [c]) ++ [10]) with ((file ++ [10] ++ text_of w1 ++ [10] ++ table ++ str "startxref" ++ [10] ++ q) ++ c :: [10]) by (rewrite <- !app_assoc; reflexivity).
    apply (no_end _ c true); assumption.
  - replace (str "startxref" ++ [10] ++ to_string_Z off ++ [10] ++ str "%") with (sx ++ str "%") by (unfold sx; rewrite <- !app_assoc; reflexivity).
    destruct (Gc [] ltac:(constructor) eq_refl ltac:(cbn; lia)). apply Gm; assumption.
  - replace (str "startxref" ++ [10] ++ to_string_Z off ++ [10] ++ str "%%") with (sx ++ str "%%") by (unfold sx; rewrite <- !app_assoc; reflexivity).
    destruct (Gc (str "%") ltac:(repeat constructor; discriminate) eq_refl ltac:(cbn; lia)). apply Gm; assumption.
  - replace (str "startxref" ++ [10] ++ to_string_Z off ++ [10] ++ str "%%E") with (sx ++ str "%%E") by (unfold sx; rewrite <- !app_assoc; reflexivity).
    destruct (Gc (str "%E") ltac:(repeat constructor; discriminate) eq_refl ltac:(cbn; lia)). apply Gm; assumption.
  - replace (str "startxref" ++ [10] ++ to_string_Z off ++ [10] ++ str "%%EO") with (sx ++ str "%%EO") by (unfold sx; rewrite <- !app_assoc; reflexivity).
    destruct (Gc (str "%EO") ltac:(repeat constructor; discriminate) eq_refl ltac:(cbn; lia)). apply Gm; assumption.
Qed.

(** The full statement fails.  Every object that an incremental save appends has a point, behind the words that begin it, where a program
    that stops leaves a file that cannot be opened at all, although the previous revision is complete in it. *)
Theorem C89_torn_heading_refuted : forall decode fuel left v file j m s r done n g o todo file', (forall m b, decode m b <> NoFuel) ->
  history v file j m -> updatable s r -> update_objects (s :: r) (done ++ (n, g, o) :: todo) -> plain (done ++ (n, g, o) :: todo) ->
  write_incremental file (s :: r) = Ok file' -> (Z.of_nat (List.length file') < 2 ^ 63)%Z ->
  exists before rest, file' = file ++ [10] ++ before ++ object_heading n g ++ rest /\
    exists e, initialize parser_dictionary decode fuel left (file ++ [10] ++ before ++ object_heading n g) = Throw e.
Proof.
  intros decode fuel left v file j m s r done n g o todo file' Hdec Hh Hu Ho Hpl Hw Hfit. destruct (history_holds v file j m Hh) as (w0 & m0 & M1 & M2 & M3).
  destruct (update_written file s r _ file' Hu Ho Hw) as (t & m2 & off & E1 & E2 & E3 & E4 & E5 & E6). rewrite <- E1 in Hpl.
  destruct (section_written _ t m2 file' off E2 Hpl E3 E4 E5 Hfit) as (w1 & table & m' & W1 & W2 & W3 & W4 & _). rewrite E1 in W1.
  apply Forall2_app_inv_l in W1. destruct W1 as (d1 & t1 & F1 & F2 & ->). apply Forall_app in W2 as [Fd Ft].
  destruct t1 as [|[[n2 g2] o2] t1]; [inversion F2|]. apply Forall2_cons_both in F2 as [(K & _) F2]. cbn [fst] in K. apply pair_equal_spec in K as [<- <-].
  apply Forall_cons_iff in Ft as [(Hn & Hg & _) _]. cbn [fst snd] in Hn, Hg.
  exists (text_of d1). eexists. split.
  - rewrite W4. unfold text_of. rewrite flat_map_app. cbn [flat_map fst snd]. unfold write_object at 2, object_heading. rewrite <- !app_assoc. reflexivity.
  - assert (Ehead : object_heading n g = heading n g ++ [10]) by (unfold object_heading, heading; rewrite <- !app_assoc; reflexivity). rewrite Ehead.
    destruct (torn_search decode Hdec v file w0 (Some m0) d1 n g [10] left M1 Fd ltac:(change (2 ^ 64) with 18446744073709551616; change (2 ^ 63) with 9223372036854775808 in Hn; lia) Hg ltac:(left; cbn; tauto)) as (st & pos & Hstr & Es).
    cbv zeta in Es. change (parse_direct parser_dictionary opening_length [10]) with (Throw EParse : res (obj * bytes)) in Es. cbn [rbind] in Es.
    exists EParse. unfold initialize.
    assert (Hv : read_header (file ++ [10] ++ text_of d1 ++ heading n g ++ [10]) = Ok v).
    { destruct M1 as (? & ? & ? & _ & _ & _ & _ & _ & _ & _ & _ & z & ->). rewrite <- app_assoc. apply (header_roundtrip [] v). constructor. }
    rewrite Hv. cbn [rbind].
    assert (Hx : last_xref_offset (file ++ [10] ++ text_of d1 ++ heading n g ++ [10]) = Throw EGeneral).
    { unfold heading. match goal with |- last_xref_offset ?f = _ => replace f with ((file ++ [10] ++ text_of d1 ++ to_string_N n ++ [32] ++ to_string_N g ++ [32] ++ [111; 98]) ++ 106 :: [10]) by (rewrite <- !app_assoc; reflexivity) end.
      apply (no_end _ 106 true); [reflexivity|discriminate]. }
    rewrite Hx. cbn [rbind recoverable]. rewrite Es. reflexivity.
Qed.
(** A number that was cut in the middle is taken for the object: every appended integer of two digits or more has a point where a program
    that stops leaves a file that opens and shows a tenth of it, neither the old nor the new value. *)
Theorem C89_torn_value_refuted : forall decode fuel left v file j m s r done n g z todo file', (forall m b, decode m b <> NoFuel) ->
  history v file j m -> updatable s r -> update_objects (s :: r) (done ++ (n, g, OInt z) :: todo) -> plain (done ++ (n, g, OInt z) :: todo) -> (10 <= z)%Z ->
  write_incremental file (s :: r) = Ok file' -> (Z.of_nat (List.length file') < 2 ^ 63)%Z ->
  exists cut rest st e, file' = cut ++ rest /\ initialize parser_dictionary decode fuel left cut = Ok (v, BySearch st) /\
    resolve_entry n g (rebuilt_chain st) = Some e /\ In (e, OInt (z / 10)) (f_held st).
Proof.
  intros decode fuel left v file j m s r done n g z todo file' Hdec Hh Hu Ho Hpl Hz Hw Hfit. destruct (history_holds v file j m Hh) as (w0 & m0 & M1 & M2 & M3).
  destruct (update_written file s r _ file' Hu Ho Hw) as (t & m2 & off & E1 & E2 & E3 & E4 & E5 & E6). rewrite <- E1 in Hpl.
  destruct (section_written _ t m2 file' off E2 Hpl E3 E4 E5 Hfit) as (w1 & table & m' & W1 & W2 & W3 & W4 & _). rewrite E1 in W1.
  apply Forall2_app_inv_l in W1. destruct W1 as (d1 & t1 & F1 & F2 & ->). apply Forall_app in W2 as [Fd Ft].
  destruct t1 as [|[[n2 g2] o2] t1]; [inversion F2|]. apply Forall2_cons_both in F2 as [(K & Ko) F2]. cbn [fst snd] in K, Ko. apply pair_equal_spec in K as [<- <-].
  apply Forall_cons_iff in Ft as [(Hn & Hg & Hst & _) _]. cbn [fst snd] in Hn, Hg, Hst. assert (o2 = OInt z) by (inversion Ko; congruence). subst o2.
  assert (Hzr : (z < 2 ^ 63)%Z) by (inversion Hst as [o Hwr|]; subst; inversion Hwr; lia).
  assert (Edig : to_string_Z z = to_string_N (Z.to_N (z / 10)) ++ [digit_char (Z.to_N z mod 10)]).
  { unfold to_string_Z. replace (z <? 0)%Z with false by lia. change (digits 10 (Z.to_N z)) with (to_string_N (Z.to_N z)). rewrite last_digit by lia. do 2 f_equal. rewrite Z2N.inj_div by lia. reflexivity. }
  set (ds := to_string_N (Z.to_N (z / 10))) in *.
  set (cut := file ++ [10] ++ text_of d1 ++ heading n g ++ [10] ++ ds).
  destruct (torn_search decode Hdec v file w0 (Some m0) d1 n g ([10] ++ ds) left M1 Fd ltac:(change (2 ^ 64) with 18446744073709551616; change (2 ^ 63) with 9223372036854775808 in Hn; lia) Hg ltac:(left; cbn; tauto)) as (st & pos & Hstr & Es).
  cbv zeta in Es. destruct (digits_ok (Z.to_N (z / 10))) as (D1 & D2). fold ds in D1, D2.
  assert (Ep : parse_direct parser_dictionary opening_length ([10] ++ ds) = Ok (OInt (z / 10), [])).
  { rewrite <- (app_nil_r ds), app_assoc. apply parse_gap_text; [exact gap10| |apply oe_eof; constructor].
    replace ds with (to_pdf (OInt (z / 10))). { apply to_pdf_text. constructor. split; [|apply Z.div_lt_upper_bound; lia]. assert (0 <= z / 10)%Z by (apply Z.div_pos; lia). lia. }
    unfold ds. cbn [to_pdf]. unfold to_string_Z. replace (z / 10 <? 0)%Z with false; [reflexivity|]. symmetry. apply Z.ltb_ge. apply Z.div_pos; lia. }
  rewrite Ep in Es. cbn [rbind note_stream] in Es. change (read_token_skip parser_dictionary []) with (Ok ((TyEof, []), []) : res (token * bytes)) in Es. cbn [rbind] in Es.
  rewrite (search_eq decode Hdec) in Es. cbn [rbind] in Es. unfold search_round in Es. change (read_token parser_dictionary []) with (Ok ((TyEof, []), []) : res (token * bytes)) in Es. cbn [rbind fst] in Es.
  fold cut in Es. exists cut. eexists. eexists. eexists. split; [|split; [|split]].
  - rewrite W4. unfold cut, text_of. rewrite flat_map_app. cbn [flat_map fst snd]. unfold write_object at 2, heading. cbn [to_pdf]. rewrite Edig. rewrite <- !app_assoc. reflexivity.
  - unfold initialize.
    assert (Hv : read_header cut = Ok v).
    { unfold cut. destruct M1 as (? & ? & ? & _ & _ & _ & _ & _ & _ & _ & _ & y & ->). rewrite <- app_assoc. apply (header_roundtrip [] v). constructor. }
    rewrite Hv. cbn [rbind].
    assert (Hx : last_xref_offset cut = Throw EGeneral).
    { destruct D1 as (D1 & D3). destruct (exists_last D1) as (q & c & Eq). rewrite Eq in D3. apply Forall_app in D3 as [_ D3]. apply Forall_cons_iff in D3 as [D3 _]. unfold decimal_digit in D3.
      unfold cut. rewrite Eq. rewrite !app_assoc. apply (no_end _ c false); [|lia]. unfold is_white. repeat (apply orb_false_iff; split); lia. }
    rewrite Hx. cbn [rbind recoverable]. rewrite Es. reflexivity.
  - unfold resolve_entry, rebuilt_chain. cbn [f_streams f_held]. rewrite Hstr. cbn [app chain_entry]. unfold sec_find. cbn [s_entries s_kind s_hybrid].
    rewrite xfind_held, find_hold. cbn [xnum]. rewrite N.eqb_refl. cbn [fst xgen xdata]. rewrite N.eqb_refl. reflexivity.
  - cbn [f_held]. match goal with |- In (?e, ?o) (hold _ _ ?l) => assert (F := find_hold n e o l) end. cbn [xnum] in F. rewrite N.eqb_refl in F. apply find_some in F. apply F.
Qed.

(** The document of C36, whose catalog and number were changed: an update with two objects, the second of them an integer. *)
Definition C89_catalog : obj := ODict [(str "Type", OName (str "Catalog"))].
Definition C89_source : fsection :=
  {| f_offset := 63; f_items := [item false C36_free; item true (C36_used 1 15, C89_catalog); item true (C36_used 2 49, OInt 1234)];
     f_trailer := [(str "Root", ORef 1 0); (str "Size", OInt 3)] |}.
Definition C89_written : journal := [(1, 0, C89_catalog)] ++ [(2, 0, OInt 1234)].
Example C89_case : history PDF14 C36_file (saved_objects ([] ++ [(C36_document, C36_trailer)])) C36_trailer /\ updatable C89_source [] /\ update_objects [C89_source] C89_written /\
  plain C89_written /\ exists file', write_incremental C36_file [C89_source] = Ok file' /\ (Z.of_nat (List.length file') < 2 ^ 63)%Z.
Proof.
  assert (Wc : writable C89_catalog).
  { apply w_dict; [repeat (constructor; cbn; try (apply kl_less; cbn; lia))|repeat constructor; cbn; try discriminate; unfold is_byte; lia|cbn; repeat (constructor; cbn; unfold is_byte; try lia)]. }
  destruct C36_case as (S & _ & Ew & _). split; [|split; [|split; [|split]]].
  - apply hi_saved; [constructor; [exact S|constructor]| |exact Ew|vm_compute; reflexivity]. repeat constructor.
  - split; [|split; [|split; [|split; [|split]]]].
    + intros s x [<-|[]] Hx Hd. cbn [C89_source f_items In] in Hx. destruct Hx as [<-|[<-|[<-|[]]]]; [discriminate Hd| |]; cbn [item f_entry f_object xdata C36_used fst snd]; (split; [repeat split; cbn; lia|]); apply st_direct; [exact Wc|apply w_int; lia].
    + intros c1 s1 c2 i1 x1 i2 Ec Ei Hd. destruct c1 as [|? [|? ?]]; inversion Ec; subst. split; [|intros ? ? []]. cbn [C89_source f_items] in Ei.
      destruct i1 as [|? [|? [|? i1]]]; inversion Ei; subst; try discriminate Hd.
      * intros x2 [<-|[]] _. cbn. lia.
      * intros ? [].
      * destruct i1; discriminate.
    + cbn [C89_source f_trailer]. exact (C36_trailer_writable 3 ltac:(lia)).
    + intros x [E|[E|[]]]; discriminate.
    + cbn. lia.
    + cbn. lia.
  - split; [cbn; repeat constructor; lia|]. intros n g o. split.
    + intros [E|[E|[]]]; [exists (C36_used 1 15)|exists (C36_used 2 49)]; (split; [|split; congruence || (cbn; congruence)]); exists C89_source; eexists; (split; [left; reflexivity|]); (split; [reflexivity|]); cbn [C89_source f_items In]; unfold item; cbn [fst snd].
      * right. left. congruence.
      * right. right. left. congruence.
    + intros (e & (s & off & [<-|[]] & Hd & Hin) & En & Eg). cbn [C89_source f_items In] in Hin. unfold item in Hin. cbn [fst snd] in Hin. destruct Hin as [H|[H|[H|[]]]]; [discriminate H| |].
      * assert (e = C36_used 1 15 /\ o = C89_catalog) as [-> ->] by (split; congruence). left. cbn in En, Eg. congruence.
      * assert (e = C36_used 2 49 /\ o = OInt 1234) as [-> ->] by (split; congruence). right. left. cbn in En, Eg. congruence.
  - repeat constructor.
  - eexists. split; [vm_compute; reflexivity|vm_compute; reflexivity].
Qed.

Print Assumptions C89_between_objects_partial.
Print Assumptions C89_table_written_partial.
Print Assumptions C89_torn_heading_refuted.
Print Assumptions C89_torn_value_refuted.

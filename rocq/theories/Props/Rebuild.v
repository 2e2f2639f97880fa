(** C55: opening a file whose cross-reference data is missing or damaged. *)
From Coq Require Import List NArith ZArith Bool Lia String Sorted.
From Verif.Model Require Import Base Char Numbers SMap Object Token Lines Parser Arith Xref StartXref Header FileWrite Chain Rebuild.
From Verif.Spec Require Import Strings Grammar FileWrite Rebuild.
From Verif.Proof Require Import Tac Numbers SMap Strings Token Parser ParserAny Writer StreamObj Xref StartXref FileWrite Chain CharMap Recover Rebuild.
Import ListNotations.
Local Open Scope N_scope.

(** The full statement would be: for every file with complete objects, whatever else is damaged, opening gives the last object with each
    number and the last trailer dictionary.  Proved for files that consist of lines, complete objects without cross-reference streams,
    trailers and tables, ending with blanks or comments. *)
Theorem C55_found_partial : forall decode left text fin l, (forall m b, decode m b <> NoFuel) -> pieces 0 text l -> file_end fin ->
  exists st, find_all_objects parser_dictionary decode left (text ++ fin) = Ok st /\
    (forall n, find (fun x => xnum (fst x) =? n) (f_held st) =
       match last_object n l with
       | Some (pos, g, o) => Some ({| xnum := n; xgen := g; xdata := KUsed (Z.of_nat pos) true |}, o)
       | None => None
       end) /\
    (forall n g, resolve_entry n g (rebuilt_chain st) =
       match last_object n l with
       | Some (pos, g', o) => if g' =? g then Some {| xnum := n; xgen := g; xdata := KUsed (Z.of_nat pos) true |} else None
       | None => None
       end) /\
    f_trailer st = match last_trailer l with Some m => m | None => [] end.
Proof.
  intros decode left text fin l Hdec Hp Hf. eexists. split; [apply find_all_pieces; [exact Hdec|exact Hp|exact Hf]|].
  destruct (notes_facts l {| f_held := []; f_trailer := []; f_streams := []; f_left := left |}) as (H1 & _ & H3 & H4). cbn [f_streams f_trailer f_held] in *.
  assert (H5 : forall n, find (fun x => xnum (fst x) =? n) (f_held (notes l {| f_held := []; f_trailer := []; f_streams := []; f_left := left |})) =
       match last_object n l with
       | Some (pos, g, o) => Some ({| xnum := n; xgen := g; xdata := KUsed (Z.of_nat pos) true |}, o)
       | None => None
       end) by (intros n; rewrite H4; destruct (last_object n l) as [[[pos g] o]|]; reflexivity).
  split; [exact H5|]. split; [|exact H3]. intros n g. unfold resolve_entry, rebuilt_chain. rewrite H1. cbn [app chain_entry]. unfold sec_find.
  cbn [s_entries s_kind s_hybrid]. rewrite xfind_held, H5. destruct (last_object n l) as [[[pos g'] o]|]; [|reflexivity]. cbn [fst xgen].
  destruct (g' =? g) eqn:E; [|reflexivity]. cbn [xdata]. replace g' with g by lia. reflexivity.
Qed.
(** The position noted for an object is one where it can be read again. *)
Theorem C55_loads : forall rl text fin l, pieces 0 text l -> file_end fin -> forall pos n g o, In (pos, Object n g o) l -> n < 2 ^ 63 ->
  load_entry parser_dictionary rl (text ++ fin) {| xnum := n; xgen := g; xdata := KUsed (Z.of_nat pos) true |} = Ok (n, g, o).
Proof.
  intros rl text fin l Hp Hf pos n g o Hin Hn. apply (noted_at 0 text l Hp fin) with (before := []); try assumption; [|reflexivity].
  destruct Hf as [x Hx|x body Hx _]; destruct Hx; cbn [app token_ends]; try exact I; try (right; cbn; tauto); left; unfold blank in *; cbn in *; tauto.
Qed.
(** Opening: when reading the cross-reference data fails with an exception of the library, the search decides. *)
Theorem C55_opens_partial : forall decode fuel left text fin l v offset e, (forall m b, decode m b <> NoFuel) -> pieces 0 text l -> file_end fin ->
  read_header (text ++ fin) = Ok v ->
  last_xref_offset (text ++ fin) = Throw e \/
    (last_xref_offset (text ++ fin) = Ok offset /\ read_chain parser_dictionary decode fuel (text ++ fin) offset = Throw e) ->
  In e [EGeneral; EParse; EConversion; EDuplicateKey; EObjectMissing; ENotInitialized] ->
  exists st, initialize parser_dictionary decode fuel left (text ++ fin) = Ok (v, BySearch st) /\
    forall n g, resolve_entry n g (opened_chain (BySearch st)) =
       match last_object n l with
       | Some (pos, g', o) => if g' =? g then Some {| xnum := n; xgen := g; xdata := KUsed (Z.of_nat pos) true |} else None
       | None => None
       end.
Proof.
  intros decode fuel left text fin l v offset e Hdec Hp Hf Hv Ht He.
  destruct (C55_found_partial decode left text fin l Hdec Hp Hf) as (st & E & _ & H & _). exists st. split; [|exact H].
  unfold initialize. rewrite Hv. cbn [rbind].
  assert (X : (do offset <- last_xref_offset (text ++ fin);; read_chain parser_dictionary decode fuel (text ++ fin) offset) = Throw e).
  { destruct Ht as [->|[-> Ht]]; [reflexivity|exact Ht]. }
  rewrite X. assert (R : recoverable e = true) by (cbn in He; intuition; subst; reflexivity). rewrite R, E. reflexivity.
Qed.

(** A file saved by the library that was cut off in front of its cross-reference table still gives every object in use: its number,
    generation and value, which can also be read again at the place noted for it. *)
Theorem C55_cut_file_opens : forall decode fuel left v l trailer file, (forall m b, decode m b <> NoFuel) ->
  StronglySorted N.lt (map (fun p => xnum (fst p)) l) ->
  Forall (fun p => entry_saveable (fst p) /\ (used_in_use (fst p) -> storable (snd p) /\ not_xref (snd p))) l ->
  (exists p, In p l /\ used_in_use (fst p)) -> write_table_file v l trailer = Ok file ->
  exists cut rest st, file = cut ++ [10] ++ str "xref" ++ [10] ++ rest /\
    initialize parser_dictionary decode fuel left cut = Ok (v, BySearch st) /\
    (forall e o, In (e, o) l -> used_in_use e -> exists pos o', same_object o o' /\
       resolve_entry (xnum e) (xgen e) (opened_chain (BySearch st)) = Some {| xnum := xnum e; xgen := xgen e; xdata := KUsed pos true |} /\
       In ({| xnum := xnum e; xgen := xgen e; xdata := KUsed pos true |}, o') (f_held st) /\
       forall rl, load_entry parser_dictionary rl cut {| xnum := xnum e; xgen := xgen e; xdata := KUsed pos true |} = Ok (xnum e, xgen e, o')) /\
    (forall n g, resolve_entry n g (opened_chain (BySearch st)) <> None -> exists e o, In (e, o) l /\ used_in_use e /\ xnum e = n).
Proof.
  intros decode fuel left v l trailer file Hdec Hs Hl Hex Hw. unfold write_table_file in Hw. cbn zeta in Hw.
  destruct (recalculate_lengths_ok l) as (l1 & E1 & F1).
  { eapply Forall_impl; [|exact Hl]. intros p (A & B). split; [exact A|]. intros Hu. apply B, Hu. }
  rewrite E1 in Hw. cbn [rbind] in Hw. set (hdr := write_header v) in *.
  assert (Hs1 : StronglySorted N.lt (map (fun p => xnum (fst p)) l1)).
  { rewrite (Forall2_nums kept l l1); [exact Hs| |exact F1]. intros a b (K & _). rewrite K. reflexivity. }
  assert (Hl1 : Forall (fun p => entry_saveable (fst p) /\ (used_in_use (fst p) -> stored (snd p) /\ not_xref (snd p))) l1).
  { clear - Hl F1. induction F1 as [|a b l l1 (K & K2) F IH]; [constructor|]. inversion Hl as [|? ? (A & B) H]; subst. constructor; [|auto]. rewrite K.
    split; [exact A|]. intros Hu. destruct (K2 Hu) as (S1 & S2). split; [exact S2|]. apply (same_not_xref _ _ S1). apply B, Hu. }
  assert (Hhdr : lead_in hdr).
  { unfold hdr, write_header. change (lead_in (37 :: (str "PDF-" ++ version_text v) ++ [10] ++ 37 :: [222; 173; 192; 222] ++ [10] ++ [])).
    apply li_comment; [destruct v; cbn; repeat constructor; discriminate|unfold line_end; cbn; tauto|].
    apply li_comment; [repeat constructor; discriminate|unfold line_end; cbn; tauto|constructor]. }
  destruct (written_pieces l1 (N.of_nat (List.length hdr)) hdr 0 Hhdr Hs1 Hl1) as (text & fin & evs & Et & Hfin & Hp & _ & Hall & Honly).
  assert (Hend : exists b, fst (write_objects None (N.of_nat (List.length hdr)) l1) = b ++ str "endobj" ++ [10]).
  { apply body_end; [eapply Forall_impl; [|exact Hl1]; intros p (A & _); exact A|]. destruct Hex as (p & Hin & Hu).
    destruct (Forall2_In _ _ _ _ _ _ F1 Hin) as (b & Hb & (K & _)). exists b. split; [exact Hb|]. rewrite K. exact Hu. }
  destruct (write_objects None (N.of_nat (List.length hdr)) l1) as [body l2]. cbn [fst snd] in *. destruct Hend as (b & Eb).
  apply rbind_ok in Hw. destruct Hw as (table & Etab & Hw). apply Ok_inj in Hw.
  unfold write_xref_table in Etab. apply rbind_ok in Etab. destruct Etab as (subs & _ & Etab). apply Ok_inj in Etab.
  destruct (C55_opens_partial decode fuel left text fin evs v 0%Z EGeneral Hdec Hp Hfin) as (st & Ei & Hr).
  { rewrite <- Et. assert (Eh := header_roundtrip [] v body ltac:(constructor)). cbn [lines_text flat_map app] in Eh. exact Eh. }
  { left. rewrite <- Et, Eb. rewrite app_assoc. apply no_marker. }
  { cbn. tauto. }
  destruct (C55_found_partial decode left text fin evs Hdec Hp Hfin) as (st2 & Ei2 & Hh & _).
  assert (st2 = st).
  { unfold initialize in Ei. apply rbind_ok in Ei. destruct Ei as (v' & _ & Ei).
    destruct (do offset <- last_xref_offset (text ++ fin);; read_chain parser_dictionary decode fuel (text ++ fin) offset) as [c|e| |]; try discriminate.
    destruct (recoverable e); [|discriminate]. rewrite Ei2 in Ei. cbn [rbind] in Ei. congruence. }
  subst st2.
  exists (hdr ++ body), (subs ++ str "trailer" ++ [10] ++ to_pdf (ODict (set_size trailer (recalculate_size (map fst l1)))) ++ [10] ++ write_xref_offset (Z.of_nat (List.length (hdr ++ body ++ [10])))), st.
  split; [rewrite <- Hw, <- Etab; rewrite <- !app_assoc; reflexivity|]. rewrite Et. split; [exact Ei|]. split.
  - intros e o Hin Hu. destruct (Forall2_In _ _ _ _ _ _ F1 Hin) as ([e1 o1] & Hin1 & (K & K2)). cbn [fst snd] in *. subst e1.
    destruct (Hall e o1 Hin1 Hu) as (p & Ep). exists (Z.of_nat p), o1. split; [apply K2, Hu|]. specialize (Hr (xnum e) (xgen e)). rewrite Ep, N.eqb_refl in Hr.
    split; [exact Hr|]. specialize (Hh (xnum e)). rewrite Ep in Hh. split; [apply find_some in Hh; apply Hh|]. intros rl.
    apply (C55_loads rl text fin evs Hp Hfin).
    + clear - Ep. revert Ep. induction evs as [|[q [n g o|m]] evs IH]; cbn [last_object]; [discriminate| |intros X; right; auto].
      destruct (last_object (xnum e) evs) as [x|]; [intros X; right; auto|]. destruct (n =? xnum e) eqn:E; [|discriminate]. intros X. left. apply N.eqb_eq in E. congruence.
    + rewrite Forall_forall in Hl. destruct (Hl _ Hin) as ((A & _) & _). exact A.
  - intros n g Hx. specialize (Hr n g). rewrite Hr in Hx. destruct (Honly n) as (e & o & A & B & C).
    { destruct (last_object n evs); [discriminate|congruence]. }
    assert (Hi : In e (map fst l)).
    { assert (M : map fst l1 = map fst l) by (clear - F1; induction F1 as [|a b l l1 (K & _) F IH]; [reflexivity|]; cbn [map]; rewrite K, IH; reflexivity).
      rewrite <- M. apply (in_map fst l1 (e, o)), A. }
    apply in_map_iff in Hi. destruct Hi as ([e' o'] & X & Y). cbn [fst] in X. subst e'. exists e, o'. auto.
Qed.

(** The search always ends. *)
Theorem C55_ends : forall decode left file, (forall m b, decode m b <> NoFuel) -> find_all_objects parser_dictionary decode left file <> NoFuel.
Proof. intros decode left file H. apply loop_nofuel; [exact H|]. unfold bytes. lia. Qed.

(** An object that is not complete, after any number of complete ones, makes opening fail. *)
Theorem C55_truncated_object_refuted : forall decode left text l, (forall m b, decode m b <> NoFuel) -> pieces 0 text l ->
  exists e, find_all_objects parser_dictionary decode left (text ++ [10] ++ str "9 0 obj" ++ [10] ++ str "<< /Kids [ 1 0 R ") = Throw e.
Proof.
  intros decode left text l Hdec Hp. eexists.
  rewrite (find_all_then decode Hdec left text l ([10] ++ str "9 0 obj" ++ [10] ++ str "<< /Kids [ 1 0 R ")) by (exact Hp || (left; cbn; tauto)).
  match goal with |- search _ ?t _ ?s = _ => generalize t; generalize s end. intros s t. vm_compute. reflexivity.
Qed.
(** A word that is cut off by the end of the file, like a part of xref, startxref or a table row, makes opening fail although every
    object is complete. *)
Theorem C55_cut_word_refuted : forall decode left text l w, (forall m b, decode m b <> NoFuel) -> pieces 0 text l ->
  Forall pdf_regular w -> w <> [] -> ~ In (hd 0 w) (str "+-.0123456789") -> w <> str "trailer" -> w <> str "startxref" ->
  find_all_objects parser_dictionary decode left (text ++ [10] ++ w) = Throw EGeneral.
Proof.
  intros decode left text l w Hdec Hp Hr Hne Hh Hw1 Hw2. rewrite (find_all_then decode Hdec left text l ([10] ++ w)) by (exact Hp || (left; cbn; tauto)).
  cbn [app]. rewrite (lf_skip decode Hdec). rewrite (search_eq decode Hdec). unfold search_round.
  assert (P : plain_word w) by (split; [|split]; assumption).
  assert (E := word_token decode Hdec w [] P I). rewrite app_nil_r in E. rewrite E. cbn [rbind fst snd].
  destruct (dictionary_word w P) as (N1 & N2 & N3 & N4). pose proof (d_not_eol w) as N5.
  assert (X : pass_line w (parser_dictionary w, w) [] = Throw EGeneral).
  { unfold pass_line. rewrite word_saw_end. cbn [fst]. destruct (parser_dictionary w); try reflexivity. congruence. }
  rewrite X. destruct (parser_dictionary w); try congruence; try (specialize (N3 eq_refl); congruence); try (specialize (N4 eq_refl); congruence); reflexivity.
Qed.
(** a table row cut off in its offsets *)
Theorem C55_cut_row_refuted : forall decode left text l, (forall m b, decode m b <> NoFuel) -> pieces 0 text l ->
  find_all_objects parser_dictionary decode left (text ++ [10] ++ str "0000000016 000") = Throw EGeneral.
Proof.
  intros decode left text l Hdec Hp.
  rewrite (find_all_then decode Hdec left text l ([10] ++ str "0000000016 000")) by (exact Hp || (left; cbn; tauto)).
  match goal with |- search _ ?t _ ?s = _ => generalize t; generalize s end. intros s t. vm_compute. reflexivity.
Qed.
(** Cross-reference streams that are met, the first one in front, come before the table of the objects that were found: the newest
    object is hidden by what the oldest stream says. *)
Theorem C55_streams_first : forall st n g e, chain_entry n g (f_streams st) = Some e -> chain_entry n g (rebuilt_chain st) = Some e.
Proof.
  intros st n g e. unfold rebuilt_chain. generalize (f_streams st). induction c as [|s c IH]; cbn [app chain_entry]; [discriminate|].
  destruct (sec_find n s) as [x|]; [destruct (xgen x =? g); auto|auto].
Qed.
Definition stale_file : bytes :=
  str "%PDF-1.5" ++ [10] ++ str "1 0 obj (old) endobj" ++ [10] ++
  str "2 0 obj << /Type /XRef /Size 3 /W [ 1 1 1 ] /Length 9 >> stream" ++ [10; 0; 0; 0; 1; 9; 0; 1; 30; 0; 10] ++ str "endstream endobj" ++ [10] ++
  str "1 0 obj (new) endobj" ++ [10].
Theorem C55_stream_hides_newest_refuted : exists st,
  find_all_objects parser_dictionary (fun _ b => Ok b) [] stale_file = Ok st /\
  In ({| xnum := 1; xgen := 0; xdata := KUsed 121 true |}, OLit (str "new")) (f_held st) /\
  resolve_entry 1 0 (rebuilt_chain st) = Some {| xnum := 1; xgen := 0; xdata := KUsed 9 true |} /\
  load_entry parser_dictionary opening_length stale_file {| xnum := 1; xgen := 0; xdata := KUsed 9 true |} = Ok (1, 0, OLit (str "old")).
Proof.
  eexists. split; [vm_compute; reflexivity|]. split; [left; reflexivity|]. split; vm_compute; reflexivity.
Qed.
(** A stream whose /Type is an indirect object makes opening fail: the objects cannot be looked up yet. *)
Theorem C55_indirect_type_refuted : forall decode left text l, (forall m b, decode m b <> NoFuel) -> pieces 0 text l ->
  find_all_objects parser_dictionary decode left
    (text ++ [10] ++ str "9 0 obj << /Length 1 /Type 8 0 R >> stream" ++ [10; 65; 10] ++ str "endstream endobj" ++ [10]) = Throw ENotInitialized.
Proof.
  intros decode left text l Hdec Hp.
  rewrite (find_all_then decode Hdec left text l ([10] ++ str "9 0 obj << /Length 1 /Type 8 0 R >> stream" ++ [10; 65; 10] ++ str "endstream endobj" ++ [10])) by (exact Hp || (left; cbn; tauto)).
  match goal with |- search _ ?t _ ?s = _ => generalize t; generalize s end. intros s t. vm_compute. reflexivity.
Qed.
(** A number behind startxref that does not fit is reported as an exception of the standard library, for which there is no search. *)
Theorem C55_huge_offset_refuted : forall decode fuel left text v,
  read_header (text ++ [10] ++ str "startxref" ++ [10] ++ str "99999999999999999999" ++ [10] ++ str "%%EOF" ++ [10]) = Ok v ->
  initialize parser_dictionary decode fuel left (text ++ [10] ++ str "startxref" ++ [10] ++ str "99999999999999999999" ++ [10] ++ str "%%EOF" ++ [10]) = Throw EStdRange.
Proof.
  intros decode fuel left text v Hv. unfold initialize. rewrite Hv. cbn [rbind].
  assert (E : last_xref_offset (text ++ [10] ++ str "startxref" ++ [10] ++ str "99999999999999999999" ++ [10] ++ str "%%EOF" ++ [10]) = Throw EStdRange); [|rewrite E; reflexivity].
  unfold last_xref_offset. cbn zeta.
  destruct (window_end text ([10] ++ str "startxref" ++ [10] ++ str "99999999999999999999" ++ [10] ++ str "%%EOF" ++ [10]) ltac:(cbn; lia)) as (p' & E). rewrite E.
  rewrite rev_app_distr. generalize (rev p'). intros t. vm_compute. reflexivity.
Qed.

(** A damaged file: a comment, two revisions of object 7, a table, a trailer and a wrong offset. *)
Definition damaged_text : bytes :=
  str "%PDF-1.4" ++ [13; 10] ++ str "7 0 obj" ++ [10] ++ str "(one)" ++ [10] ++ str "endobj" ++ [10] ++ str "xref" ++ [10] ++ str "0 1" ++ [32; 10] ++
  str "0000000000 65535 f" ++ [32; 10] ++ str "trailer" ++ [10] ++ str "<</Size 8>>" ++ [10] ++ str "startxref" ++ [10] ++ str "5" ++ [10] ++
  str "007 2 obj" ++ [32] ++ str "12" ++ [10] ++ str "endobj".
Definition damaged_events : list (nat * event) :=
  [(0%nat, Object 7 0 (OLit (str "one"))); (61%nat, Trailer [(str "Size", OInt 8)]); (93%nat, Object 7 2 (OInt 12))].
Ltac blanks := apply Forall_forall; intros c Hc; cbn in Hc; unfold blank; cbn; lia.
Ltac digits_here := split; [discriminate|apply Forall_forall; intros c Hc; cbn in Hc; unfold decimal_digit; lia].
Ltac regulars := apply Forall_forall; intros c Hc; cbn in Hc; unfold pdf_regular; cbn; lia.
Ltac plain_line := apply Forall_forall; intros c Hc; cbn in Hc; lia.
Ltac end_here := unfold line_end; cbn; tauto.
Ltac ends_here := left; cbn; tauto.
Lemma line_piece : forall pos more l, pieces (pos + 1) more l -> pieces pos ([10] ++ more) l.
Proof.
  intros pos more l H. apply (pc_piece pos [] [10] None false more l); [constructor|apply ct_line_end; end_here|cbn; lia|discriminate|].
  cbn [List.length]. replace (pos + 0 + 1)%nat with (pos + 1)%nat by lia. exact H.
Qed.
Example C55_case_pieces : pieces 0 damaged_text damaged_events.
Proof.
  unfold damaged_text, damaged_events.
  apply (pc_piece 0 (str "%PDF-1.4" ++ [13; 10]) (str "7 0 obj" ++ [10] ++ str "(one)" ++ [10] ++ str "endobj") (Some (Object 7 0 (OLit (str "one")))) true).
  - apply (li_comment (str "PDF-1.4") [13; 10] []); [plain_line|end_here|constructor].
  - apply (ct_object (str "7") [32] (str "0") [32] [10] (str "(one)") (OLit (str "one")) [10]);
      try digits_here; try discriminate; try (vm_compute; congruence); try exact gap10; try blanks; [|ends_here].
    apply bt_direct. exact (to_pdf_text (OLit (str "one")) (w_lit _ (str_bytes _))).
  - cbn. lia.
  - intros _. ends_here.
  - apply line_piece.
    apply (pc_piece _ [] (str "xref" ++ [10]) None false); [constructor| |cbn; lia|discriminate|].
    { apply (ct_words (str "xref") [] [10]); [regulars|discriminate|cbn; lia|discriminate|discriminate|constructor|end_here|ends_here]. }
    apply (pc_piece _ [] (str "0 1" ++ [32; 10]) None false); [constructor| |cbn; lia|discriminate|].
    { apply (ct_subsection (str "0") [32] (str "1") [32] [10]); [digits_here|digits_here|blanks|discriminate|blanks|end_here]. }
    apply (pc_piece _ [] (str "0000000000 65535 f" ++ [32; 10]) None false); [constructor| |cbn; lia|discriminate|].
    { apply (ct_row (str "0000000000") [32] (str "65535") [32] (str "f") [32] [10]);
        [digits_here|digits_here|blanks|discriminate|blanks|discriminate|regulars|discriminate|cbn; lia|discriminate|plain_line|end_here|ends_here]. }
    apply (pc_piece _ [] (str "trailer" ++ [10] ++ str "<</Size 8>>") (Some (Trailer [(str "Size", OInt 8)])) false); [constructor| |cbn; lia|discriminate|].
    { apply (ct_trailer [10] (str "<</Size 8>>")); [exact gap10|]. apply (to_pdf_text (ODict [(str "Size", OInt 8)])).
      apply w_dict; [repeat constructor|constructor; [split; [apply str_bytes|discriminate]|constructor]|constructor; [apply w_int; lia|constructor]]. }
    apply line_piece.
    apply (pc_piece _ [] (str "startxref" ++ [10] ++ str "5") None true); [constructor| |cbn; lia|intros _; ends_here|].
    { apply (ct_startxref [10] (str "5")); [exact gap10|discriminate|digits_here|vm_compute; reflexivity]. }
    apply line_piece.
    apply (pc_piece _ [] (str "007 2 obj" ++ [32] ++ str "12" ++ [10] ++ str "endobj") (Some (Object 7 2 (OInt 12))) true [] []); [constructor| |cbn; lia|intros _; exact I|constructor].
    apply (ct_object (str "007") [32] (str "2") [32] [32] (str "12") (OInt 12) [10]);
      try digits_here; try discriminate; try (vm_compute; congruence); try exact gap10; try exact gap32; try blanks; [|ends_here].
    apply bt_direct. exact (to_pdf_text (OInt 12) (w_int 12 ltac:(lia))).
Qed.
Example C55_case : pieces 0 damaged_text damaged_events /\ file_end (str " % the end") /\
  last_object 7 damaged_events = Some (93%nat, 2, OInt 12) /\ last_trailer damaged_events = Some [(str "Size", OInt 8)] /\
  exists st, initialize parser_dictionary (fun _ b => Ok b) 5 [] (damaged_text ++ str " % the end") = Ok (PDF14, BySearch st) /\
    f_held st = [({| xnum := 7; xgen := 2; xdata := KUsed 93 true |}, OInt 12)] /\ f_trailer st = [(str "Size", OInt 8)].
Proof.
  split; [exact C55_case_pieces|]. split.
  - apply (fe_comment [32] (str " the end")); [apply li_blank; [unfold blank; cbn; tauto|constructor]|plain_line].
  - split; [reflexivity|]. split; [reflexivity|]. eexists. split; [vm_compute; reflexivity|]. split; reflexivity.
Qed.
(** a document for [C55_cut_file_opens] *)
Definition small_document : list (xentry * obj) :=
  [({| xnum := 0; xgen := 65535; xdata := KFree 0 |}, ONull);
   ({| xnum := 1; xgen := 0; xdata := KUsed (-1) true |}, OStream [(str "Type", OName (str "Metadata"))] (str "startxref 0 %%EOF"));
   ({| xnum := 4; xgen := 3; xdata := KUsed 77 true |}, OArr [OBool true; ORef 1 0])].
Example C55_case_cut : StronglySorted N.lt (map (fun p => xnum (fst p)) small_document) /\
  Forall (fun p => entry_saveable (fst p) /\ (used_in_use (fst p) -> storable (snd p) /\ not_xref (snd p))) small_document /\
  (exists p, In p small_document /\ used_in_use (fst p)) /\ exists file, write_table_file PDF17 small_document [] = Ok file.
Proof.
  split; [repeat (constructor; [|repeat constructor]); repeat constructor|]. split.
  - repeat apply Forall_cons; [| | |constructor]; (split; [unfold entry_saveable; cbn; repeat split; try lia|]); cbn [fst snd used_in_use xdata]; intros [].
    + split.
      * apply st_stream; [|intros v [X|[]]; discriminate|vm_compute; reflexivity].
        apply w_dict; [repeat constructor|constructor; [split; [apply str_bytes|discriminate]|constructor]|constructor; [apply w_name, str_bytes|constructor]].
      * intros v [X|[]]. injection X as <-. eexists. split; [reflexivity|discriminate].
    + split; [|exact I]. apply st_direct, w_arr. constructor; [apply w_bool|constructor; [apply w_ref; cbn; lia|constructor]].
  - split; [exists (nth 1 small_document ({| xnum := 0; xgen := 0; xdata := KFree 0 |}, ONull)); split; [right; left; reflexivity|exact I]|].
    eexists. vm_compute. reflexivity.
Qed.

Print Assumptions C55_found_partial.
Print Assumptions C55_loads.
Print Assumptions C55_opens_partial.
Print Assumptions C55_cut_file_opens.
Print Assumptions C55_ends.
Print Assumptions C55_truncated_object_refuted.
Print Assumptions C55_cut_word_refuted.
Print Assumptions C55_cut_row_refuted.
Print Assumptions C55_streams_first.
Print Assumptions C55_stream_hides_newest_refuted.
Print Assumptions C55_indirect_type_refuted.
Print Assumptions C55_huge_offset_refuted.

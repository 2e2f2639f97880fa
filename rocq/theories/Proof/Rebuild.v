(** Lemmas about the search for objects. *)
From Coq Require Import List NArith ZArith Bool Lia String Sorted.
From Verif.Model Require Import Base Char Numbers SMap Object Token Lines Parser Arith Xref StartXref Header FileWrite Chain Rebuild.
From Verif.Spec Require Import Strings Grammar FileWrite Rebuild.
From Verif.Proof Require Import Tac Numbers SMap Strings Token Parser ParserAny Writer StreamObj Xref StartXref FileWrite Chain CharMap Recover.
Import ListNotations.
Local Open Scope N_scope.

Notation d := parser_dictionary.

Section Loop.
Variable decode : list (bytes * obj) -> bytes -> res bytes.
Hypothesis decode_ends : forall m b, decode m b <> NoFuel.
Lemma opening_ends : forall n g, opening_length n g <> NoFuel. Proof. discriminate. Qed.

(** ** every round consumes input, and ends *)
Lemma pass_line_len : forall s tk rest r, pass_line s tk rest = Ok r -> (List.length r <= List.length rest)%nat.
Proof.
  intros s tk rest r H. unfold pass_line in H. destruct (readline rest) as [[l x] e] eqn:E. apply (readline_len opening_length opening_ends) in E. destruct E as [E _].
  assert (G : forall b : bool, (if b then Throw EGeneral else Ok x) = Ok r -> (List.length r <= List.length rest)%nat).
  { intros b G. destruct b; [discriminate|]. apply Ok_inj in G. subst. lia. }
  destruct (fst tk); try (apply G in H; exact H). apply Ok_inj in H. subst. lia.
Qed.
Lemma pass_line_nofuel : forall s tk rest, pass_line s tk rest <> NoFuel.
Proof.
  intros s tk rest. unfold pass_line. destruct (readline rest) as [[l x] e]. destruct (fst tk); try discriminate; destruct (saw_end s tk rest); discriminate.
Qed.
Lemma read_dictionary_nofuel : forall s, read_dictionary d s <> NoFuel.
Proof.
  intros s. unfold read_dictionary. apply rbind_nofuel; [apply expect_skip_nofuel|intros [v r] H].
  apply expect_skip_len in H; [|discriminate]. apply (proj2 (proj2 (Writer.parse_total d opening_length opening_ends _))). lia.
Qed.
Lemma read_dictionary_len : forall s m r, read_dictionary d s = Ok (m, r) -> (List.length r <= List.length s)%nat.
Proof.
  intros s m r H. unfold read_dictionary in H. apply rbind_ok in H. destruct H as ([v r1] & H1 & H).
  apply expect_skip_len in H1; [|discriminate]. apply (proj2 (proj2 (parse_len d opening_length opening_ends _))) in H. lia.
Qed.
Lemma note_stream_nofuel : forall n g o st, note_stream decode n g o st <> NoFuel.
Proof.
  intros n g o st. unfold note_stream. destruct o as [| | | | | | | | | |m b]; try discriminate. destruct (sm_find (str "Type") m) as [[]|]; try discriminate.
  cif; [|discriminate]. apply rbind_nofuel; [apply parse_stream_section_nofuel; exact decode_ends|intros [? ?] _; discriminate].
Qed.
Lemma read_token_shorter : forall s tk r, read_token d s = Ok (tk, r) -> fst tk <> TyEof -> (List.length r < List.length s)%nat.
Proof. intros s tk r H Hne. apply read_token_length in H. destruct H as [H|[H _]]; [exact H|congruence]. Qed.
Lemma read_token_le : forall s tk r, read_token d s = Ok (tk, r) -> (List.length r <= List.length s)%nat.
Proof. intros s tk r H. apply read_token_length in H. destruct H as [H|[_ ->]]; cbn; lia. Qed.

Ltac use H := apply rbind_ok in H.
Lemma round_len : forall pos s st r st2, search_round d decode pos s st = Ok (Some (r, st2)) -> (List.length r < List.length s)%nat.
Proof.
  intros pos s st r st2 H. unfold search_round in H. use H. destruct H as ([tk r1] & H1 & H).
  assert (L1 : fst tk <> TyEof -> (List.length r1 < List.length s)%nat) by (apply read_token_shorter; exact H1).
  assert (P : forall ss tk0 rest, (do r2 <- pass_line ss tk0 rest;; Ok (Some (r2, st))) = Ok (Some (r, st2)) -> (List.length r <= List.length rest)%nat).
  { intros ss tk0 rest HP. use HP. destruct HP as (r2 & P1 & HP). apply pass_line_len in P1. apply Ok_inj in HP. inversion HP; subst. exact P1. }
  destruct (fst tk) eqn:Et; try discriminate; specialize (L1 ltac:(discriminate)); try (apply P in H; lia).
  - apply Ok_inj in H. inversion H; subst. exact L1.
  - use H. destruct H as ([tg r2] & H2 & H). assert (L2 := read_token_le _ _ _ H2). destruct (fst tg); try (apply P in H; lia).
    use H. destruct H as ([tb r3] & H3 & H). assert (L3 := read_token_le _ _ _ H3). destruct (fst tb); try (apply P in H; lia).
    use H. destruct H as (n & _ & H). use H. destruct H as (gl & _ & H). use H. destruct H as (g & _ & H). use H. destruct H as ([o r4] & H4 & H).
    apply (proj1 (parse_len d opening_length opening_ends _)) in H4. cbn zeta in H. use H. destruct H as (st3 & _ & H). use H. destruct H as ([tk5 r5] & H5 & H).
    apply read_token_skip_length in H5. apply Ok_inj in H. inversion H; subst. destruct H5 as [H5|[_ ->]]; cbn [List.length] in *; lia.
  - use H. destruct H as ([tk2 r2] & H2 & H). apply read_token_skip_length in H2.
    assert (L2 : (List.length r2 <= List.length r1)%nat) by (destruct H2 as [H2|[_ ->]]; cbn [List.length] in *; lia).
    destruct (fst tk2); try (apply Ok_inj in H; inversion H; subst; lia). use H. destruct H as (z & _ & H). apply Ok_inj in H. inversion H; subst. lia.
  - use H. destruct H as ([m r2] & H2 & H). apply read_dictionary_len in H2. apply Ok_inj in H. inversion H; subst. lia.
Qed.
Lemma round_nofuel : forall pos s st, search_round d decode pos s st <> NoFuel.
Proof.
  intros pos s st. unfold search_round. apply rbind_nofuel; [apply read_token_nofuel|intros [tk r1] _].
  assert (P : forall ss tk0 rest, (do r2 <- pass_line ss tk0 rest;; Ok (Some (r2, st))) <> NoFuel).
  { intros. apply rbind_nofuel; [apply pass_line_nofuel|discriminate]. }
  destruct (fst tk); try discriminate; try apply P.
  - apply rbind_nofuel; [apply read_token_nofuel|intros [tg r2] _]. destruct (fst tg); try apply P.
    apply rbind_nofuel; [apply read_token_nofuel|intros [tb r3] _]. destruct (fst tb); try apply P.
    apply rbind_nofuel; [apply stoull_nofuel|intros n _]. apply rbind_nofuel; [apply stoull_nofuel|intros gl _].
    apply rbind_nofuel; [apply to_u16_nofuel|intros g _]. apply rbind_nofuel; [apply parse_direct_total; exact opening_ends|intros [o r4] _].
    apply rbind_nofuel; [apply note_stream_nofuel|intros st3 _]. apply rbind_nofuel; [apply read_token_skip_nofuel|intros [? ?] _; discriminate].
  - apply rbind_nofuel; [apply read_token_skip_nofuel|intros [tk2 r2] _]. destruct (fst tk2); try discriminate.
    apply rbind_nofuel; [apply stoll_nofuel|discriminate].
  - apply rbind_nofuel; [apply read_dictionary_nofuel|intros [? ?] _; discriminate].
Qed.
Lemma loop_fuel : forall total k s st f g, (List.length s <= k)%nat -> (List.length s < f)%nat -> (List.length s < g)%nat ->
  search_loop d decode f total s st = search_loop d decode g total s st.
Proof.
  intros total. induction k as [|k IH]; intros s st f g Hk Hf Hg; destruct f as [|f], g as [|g]; try lia; cbn [search_loop].
  - destruct s; [reflexivity|cbn in Hk; lia].
  - destruct (search_round d decode (total - List.length s) s st) as [[[r st2]|]| | |] eqn:E; cbn [rbind]; try reflexivity.
    apply round_len in E. apply IH; lia.
Qed.
Lemma loop_nofuel : forall total f s st, (List.length s < f)%nat -> search_loop d decode f total s st <> NoFuel.
Proof.
  intros total. induction f as [|f IH]; intros s st Hf; [lia|]. cbn [search_loop]. apply rbind_nofuel; [apply round_nofuel|intros [[r st2]|] E; [|discriminate]].
  apply round_len in E. apply IH. lia.
Qed.
Definition search (total : nat) (s : bytes) (st : found) : res found := search_loop d decode (S (List.length s)) total s st.
Lemma search_eq : forall total s st, search total s st =
  do x <- search_round d decode (total - List.length s) s st;;
  match x with None => Ok st | Some (r, st2) => search total r st2 end.
Proof.
  intros total s st. unfold search at 1. cbn [search_loop].
  destruct (search_round d decode (total - List.length s) s st) as [[[r st2]|]| | |] eqn:E; cbn [rbind]; try reflexivity.
  apply round_len in E. unfold search. apply (loop_fuel total (List.length r)); lia.
Qed.

(** ** tokens *)
Lemma comment_body : forall body s, no_line_end body -> read_token_aux d true (body ++ s) = read_token_aux d true s.
Proof.
  induction body as [|c body IH]; intros s H; [reflexivity|]. inversion H as [|? ? (H1 & H2) H']; subst. cbn [app read_token_aux].
  replace (c =? 13) with false by lia. replace (c =? 10) with false by lia. apply IH, H'.
Qed.
Lemma blank_token : forall c s, blank c -> read_token d (c :: s) = read_token d s.
Proof. intros c s H. unfold blank in H. cbn in H. destruct H as [<-|[<-|[<-|[<-|[]]]]]; reflexivity. Qed.
Lemma blanks_token : forall b s, Forall blank b -> read_token d (b ++ s) = read_token d s.
Proof. induction b as [|c b IH]; intros s H; [reflexivity|]. inversion H; subst. cbn [app]. rewrite blank_token by assumption. apply IH. assumption. Qed.
Lemma comment_cr : forall s, hd 0 s <> 10 -> read_token_aux d true (13 :: s) = read_token_aux d false s.
Proof.
  intros s H. cbn [read_token_aux N.eqb Pos.eqb]. destruct (match10 s (read_token_aux d false) (read_token_aux d false s)) as [(t & -> & _)|[_ E]]; [cbn in H; congruence|exact E].
Qed.
Lemma lead_hd : forall l s, lead_in l -> l <> [] -> hd 0 (l ++ s) <> 10.
Proof. intros l s H Hne. destruct H as [|c l Hc Hl|body e l Hb He Hl]; [congruence| |cbn; lia]. cbn. unfold blank in Hc. cbn in Hc. lia. Qed.
Lemma last_app : forall (a b : list N) x, b <> [] -> last (a ++ b) x = last b x.
Proof.
  induction a as [|c a IH]; intros b x H; [reflexivity|]. cbn [app last]. destruct (a ++ b) eqn:E; [apply app_eq_nil in E; destruct E; congruence|].
  rewrite <- E. apply IH, H.
Qed.
Lemma lead_token : forall l, lead_in l -> forall s, ~ (last l 0 = 13 /\ hd 0 s = 10) -> read_token d (l ++ s) = read_token d s.
Proof.
  intros l H. induction H as [|c l Hc Hl IH|body e l Hb He Hl IH]; intros s Hs; [reflexivity| |].
  - cbn [app]. rewrite blank_token by exact Hc. destruct l as [|x l]; [reflexivity|]. apply IH. exact Hs.
  - assert (Hs2 : ~ (last l 0 = 13 /\ hd 0 s = 10)).
    { destruct l as [|x l]; [cbn; lia|]. intros X. apply Hs. rewrite !app_comm_cons, app_assoc, last_app by discriminate. exact X. }
    specialize (IH s Hs2). rewrite <- IH. unfold read_token. cbn [app read_token_aux N.eqb Pos.eqb orb]. rewrite <- app_assoc.
    rewrite comment_body by exact Hb. rewrite <- app_assoc. unfold line_end in He. cbn in He. destruct He as [<-|[<-|[<-|[]]]]; try reflexivity.
    apply comment_cr. destruct l as [|x l]; [|apply lead_hd; [exact Hl|discriminate]]. cbn [app]. intros X. apply Hs. split; [|exact X].
    rewrite app_nil_r, app_comm_cons, last_app by discriminate. reflexivity.
Qed.
Lemma lead_gap : forall l, lead_in l -> gap l.
Proof.
  intros l H. induction H as [|c l Hc Hl IH|body e l Hb He Hl IH]; [constructor| |apply gap_comment; assumption].
  apply gap_white; [|exact IH]. unfold blank in Hc. cbn in Hc. cbn. tauto.
Qed.
Lemma d_not_eol : forall w, d w <> TyEol.
Proof. intros w. unfold parser_dictionary. repeat cif; discriminate. Qed.
Lemma plain_token : forall c s x, is_regular c = true -> read_token_skip d (c :: s) = Ok x -> read_token d (c :: s) = Ok x.
Proof.
  intros c s x Hw H. rewrite read_token_skip_eq in H. destruct (read_token d (c :: s)) as [[tk r]| | |] eqn:E; cbn [rbind] in H; try discriminate.
  destruct (fst tk) eqn:Et; try exact H. exfalso. clear H. rewrite regular_read in E by exact Hw.
  apply Ok_inj in E. unfold read_unknown in E. destruct (is_numeric c || (c =? 43) || (c =? 45) || (c =? 46)).
  - destruct (span is_numeric s) as [ds s1]. destruct (c =? 46); [inversion E; subst; discriminate|].
    assert (G : forall t, (let '(ds2, s3) := span is_numeric t in ((TyReal, c :: ds ++ [46] ++ ds2), s3)) = (tk, r) -> False).
    { intros t. destruct (span is_numeric t). intros X. inversion X; subst. discriminate. }
    destruct s1 as [|y s1]; [inversion E; subst; discriminate|]. destruct (N.eq_dec y 46) as [->|Hy]; [exact (G _ E)|].
    assert (E2 : ((TyInt, c :: ds), y :: s1) = (tk, r)).
    { rewrite <- E. destruct y as [|p]; [reflexivity|]. repeat (destruct p as [p|p|]; try reflexivity; try congruence). }
    inversion E2; subst; discriminate.
  - destruct (span is_regular s) as [cs s1]. inversion E; subst. cbn [fst] in Et. exact (d_not_eol _ Et).
Qed.
Lemma nat_token : forall ds rest, digits_text ds -> token_ends rest -> read_token d (ds ++ rest) = Ok ((TyInt, ds), rest).
Proof.
  intros ds rest (Hne & Hd) Hr. assert (H := tok_nat d ds rest Hne Hd Hr). destruct ds as [|c ds]; [congruence|]. inversion Hd as [|? ? Hc _]; subst. unfold decimal_digit in Hc.
  apply plain_token; [|exact H]. apply is_regular_spec. split; cbn; lia.
Qed.
Definition plain_word (w : list N) : Prop := Forall pdf_regular w /\ w <> [] /\ ~ In (hd 0 w) (str "+-.0123456789").
Lemma word_skip : forall w rest, plain_word w -> token_ends rest -> read_token_skip d (w ++ rest) = Ok ((d w, w), rest).
Proof.
  intros w rest (Hw & Hne & Hh) Hr. apply tok_word; [| |exact Hr|apply d_not_eol].
  - apply forallb_forall. rewrite Forall_forall in Hw. intros c Hc. apply is_regular_spec. auto.
  - destruct w as [|c w]; [congruence|]. cbn [hd] in Hh. cbn in Hh. unfold is_numeric. lia.
Qed.
Lemma word_token : forall w rest, plain_word w -> token_ends rest -> read_token d (w ++ rest) = Ok ((d w, w), rest).
Proof.
  intros w rest Hw Hr. assert (H := word_skip w rest Hw Hr). destruct Hw as (Hw & Hne & Hh). destruct w as [|c w]; [congruence|].
  inversion Hw as [|? ? (Hc1 & Hc2) _]; subst. apply plain_token; [apply is_regular_spec; split; assumption|exact H].
Qed.

(** ** one piece *)
Definition note (pos : nat) (x : event) (st : found) : found :=
  match x with
  | Object n g o => {| f_held := hold {| xnum := n; xgen := g; xdata := KUsed (Z.of_nat pos) true |} o (f_held st); f_trailer := f_trailer st;
                       f_streams := f_streams st; f_left := f_left st |}
  | Trailer m => {| f_held := f_held st; f_trailer := m; f_streams := f_streams st; f_left := f_left st |}
  end.
Lemma stoull_digits : forall ds, digits_text ds -> decimal_value ds < 2 ^ 64 -> stoull ds = Ok (decimal_value ds).
Proof.
  intros ds (Hne & Hd) Hv. assert (E := strtol_decimal [] false _ st_none Hne Hd). cbn [app signed] in E. unfold stoull. rewrite E.
  change (2 ^ 64) with 18446744073709551616 in Hv. change (2 ^ 64)%Z with 18446744073709551616%Z.
  replace (Z.abs (Z.of_N (decimal_value ds)) <=? 18446744073709551616 - 1)%Z with true by lia.
  rewrite Z.mod_small by lia. rewrite N2Z.id. reflexivity.
Qed.
Lemma lf_skip : forall total s st, search total (10 :: s) st = search total s st.
Proof. intros total s st. rewrite search_eq. reflexivity. Qed.
Lemma eol_read : forall e s, line_end e -> exists r, read_token d (e ++ s) = Ok ((TyEol, []), r) /\ (r = s \/ s = 10 :: r).
Proof.
  intros e s H. unfold line_end in H. cbn in H. destruct H as [<-|[<-|[<-|[]]]]; [exists s; auto| |exists s; auto].
  cbn [app]. destruct (N.eq_dec (hd 0 s) 10) as [E|E].
  - destruct s as [|c s]; [discriminate|]. cbn in E. subst c. exists s. auto.
  - exists s. split; [|auto]. unfold read_token. cbn [read_token_aux N.eqb Pos.eqb orb].
    destruct (match10 s (fun t' => @Ok (token * bytes) ((TyEol, []), t')) (Ok ((TyEol, []), s))) as [(t & -> & _)|[_ X]]; [cbn in E; congruence|exact X].
Qed.
Lemma eol_line : forall line e s, no_line_end line -> line_end e -> exists l r b, readline (line ++ e ++ s) = (l, r, b) /\ (r = s \/ s = 10 :: r).
Proof.
  intros line e s Hl H. unfold line_end in H. cbn in H. destruct H as [<-|[<-|[<-|[]]]]; cbn [app].
  - do 3 eexists. split; [apply readline_line; exact Hl|auto].
  - rewrite readline_cr by exact Hl. destruct s as [|c s]; [do 3 eexists; split; [reflexivity|auto]|].
    destruct (readline_13 (c :: s) ltac:(discriminate)) as [(t & E & X)|[_ X]]; rewrite X; do 3 eexists; (split; [reflexivity|]); auto.
  - do 3 eexists. split; [apply readline_crlf; exact Hl|auto].
Qed.
Lemma resume : forall total r s st, r = s \/ s = 10 :: r -> search total r st = search total s st.
Proof. intros total r s st [->| ->]; [reflexivity|]. symmetry. apply lf_skip. Qed.
Lemma blanks_end : forall b s, Forall blank b -> b <> [] -> token_ends (b ++ s).
Proof. intros [|c b] s H Hne; [congruence|]. inversion H as [|? ? Hc _]; subst. left. unfold blank in Hc. cbn in Hc. cbn. tauto. Qed.
Lemma eol_end : forall e s, line_end e -> token_ends (e ++ s).
Proof. intros e s H. unfold line_end in H. cbn in H. destruct H as [<-|[<-|[<-|[]]]]; left; cbn; tauto. Qed.
Lemma line_end_ne : forall e, line_end e -> e <> [].
Proof. intros e H. unfold line_end in H. cbn in H. destruct H as [<-|[<-|[<-|[]]]]; discriminate. Qed.
Lemma token_ends_more : forall a s, token_ends a -> a <> [] -> token_ends (a ++ s).
Proof. intros a s H Hne. apply token_ends_app; auto. Qed.
Lemma word_obj : plain_word (str "obj").
Proof. split; [|split; [discriminate|cbn; lia]]. apply Forall_forall. intros c Hc. split; cbn in *; lia. Qed.
Lemma dictionary_obj : forall w, d w = TyObjBegin -> w = str "obj".
Proof.
  intros w. unfold parser_dictionary.
  repeat match goal with |- context [if bytes_eqb w ?x then _ else _] => let E := fresh "E" in destruct (bytes_eqb w x) eqn:E; [apply bytes_eqb_eq in E; subst w; intros; try discriminate; reflexivity|] end. discriminate.
Qed.
Lemma dictionary_word : forall w, plain_word w -> d w <> TyInt /\ d w <> TyEof /\ (d w = TyTrailer -> w = str "trailer") /\ (d w = TyStartXref -> w = str "startxref").
Proof.
  intros w _. unfold parser_dictionary.
  repeat match goal with |- context [if bytes_eqb w ?x then _ else _] => let E := fresh "E" in destruct (bytes_eqb w x) eqn:E; [apply bytes_eqb_eq in E; subst w; repeat split; intros; (discriminate || reflexivity)|] end.
  repeat split; intros; discriminate.
Qed.
Lemma pass_word : forall s0 w line e s, plain_word w -> no_line_end line -> line_end e ->
  exists r, pass_line s0 (d w, w) (line ++ e ++ s) = Ok r /\ (r = s \/ s = 10 :: r).
Proof.
  intros s0 w line e s Hw Hl He. destruct (eol_line line e s Hl He) as (l & r & b & E & Hr). exists r. split; [|exact Hr].
  unfold pass_line. rewrite E. cbn [fst]. assert (Hne : saw_end s0 (d w, w) (line ++ e ++ s) = false).
  { assert (N1 := line_end_ne e He). destruct (line ++ e ++ s) eqn:X; [|reflexivity]. exfalso. apply app_eq_nil in X. destruct X as [_ X]. apply app_eq_nil in X. tauto. }
  rewrite Hne. pose proof (d_not_eol w) as N2. destruct (d w); try reflexivity. congruence.
Qed.
Lemma body_parsed : forall rl g txt o g2 s, gap g -> body_text txt o -> gap g2 -> g2 <> [] -> token_ends s ->
  parse_direct d rl (g ++ txt ++ g2 ++ str "endobj" ++ s) = Ok (o, g2 ++ str "endobj" ++ s).
Proof.
  intros rl g txt o g2 s Hg Hb Hg2 Hne Hc. destruct Hb as [txt o Ho|txt m data Hs _].
  - rewrite app_assoc. apply parse_gap_text; [exact Hg|exact Ho|]. apply oe_word; [exact Hg2|exact Hne|cbn; tauto|exact Hc].
  - apply parse_gap; [exact Hg|]. apply (parse_stream_text (fun _ _ => None)); [discriminate|exact Hs|apply gap_token_ends; assumption].
Qed.
Lemma body_noted : forall n g txt o st, body_text txt o -> note_stream decode n g o st = Ok st.
Proof.
  intros n g txt o st Hb. destruct Hb as [txt o Ho|txt m data Hs Ht].
  - apply not_stream in Ho. destruct o; try reflexivity. discriminate.
  - inversion Hs as [dt m' g0 eol data' g2 Hd Hg Heol Hg2 Hlen]; subst. destruct (dict_head dt m Hd) as (t & es & -> & He & Hc).
    destruct (collect_facts es m (collect_keys t es He) Hc) as [Hsort Hok]. cbn [note_stream].
    destruct (sm_find (str "Type") m) as [v|] eqn:E; [|reflexivity]. apply sm_find_in in E; auto using str_bytes.
    destruct (Ht v E) as (x & -> & Hx). destruct (bytes_eqb x (str "XRef")) eqn:Eb; [|reflexivity]. apply bytes_eqb_eq in Eb. congruence.
Qed.
Lemma dictionary_parsed : forall g txt m s, gap g -> object_text txt (ODict m) -> read_dictionary d (g ++ txt ++ s) = Ok (m, s).
Proof.
  intros g txt m s Hg Ho. destruct (dict_head txt m Ho) as (t & es & -> & He & Hc). unfold read_dictionary, expect_skip. rewrite skip_gap by exact Hg.
  rewrite <- !app_assoc. cbn [app].
  rewrite (skip_of_read d (60 :: 60 :: t ++ 62 :: 62 :: s) (TyDictBegin, []) (t ++ 62 :: 62 :: s)) by (reflexivity || discriminate).
  cbn [rbind fst snd ttype_eqb]. rewrite (proj2 (proj2 (reads_text d parser_kw opening_length)) t es He s).
  - rewrite (dict_content_collect es m (collect_keys t es He) Hc). reflexivity.
  - rewrite app_length. cbn [List.length]. rewrite app_length. cbn [List.length]. lia.
Qed.

Lemma piece_step : forall lead core ev word, lead_in lead -> core_text core ev word -> ~ (last lead 0 = 13 /\ hd 0 core = 10) -> forall total s st,
  (word = true -> token_ends s) ->
  search total (lead ++ core ++ s) st =
  search total s (match ev with Some x => note (total - List.length (lead ++ core ++ s)) x st | None => st end).
Proof.
  intros lead core ev word Hlead Hcore Hsep total s st Hword.
  assert (Hne : core <> []).
  { destruct Hcore; repeat match goal with H : digits_text _ |- _ => destruct H end; try (apply line_end_ne; assumption); try discriminate;
      intros X; apply app_eq_nil in X; destruct X; congruence. }
  rewrite search_eq. unfold search_round. rewrite lead_token; [|exact Hlead|destruct core; [congruence|exact Hsep]].
  generalize (total - List.length (lead ++ core ++ s))%nat. intros pos. clear Hsep Hne Hlead.
  destruct Hcore as [e He|dn b1 dg b2 g txt o g2 Hdn Hdv Hdg Hdgv Hb1 Hb1n Hb2 Hb2n Hg Hb Hte Hg2 Hg2n|g txt m Hg Ho|g ds Hg Hgn Hds Hdv
    |d1 b1 d2 b2 e Hd1 Hd2 Hb1 Hb1n Hb2 He|d1 b1 d2 b2 w line e Hd1 Hd2 Hb1 Hb1n Hb2 Hb2n Hw Hwn Hwh Hwo Hline He Hte|w line e Hw Hwn Hwh Hw1 Hw2 Hline He Hte].
  - destruct (eol_read e s He) as (r & E & Hr). rewrite E. cbn [rbind fst snd]. apply resume. exact Hr.
  - specialize (Hword eq_refl). rewrite <- !app_assoc. rewrite (nat_token dn) by (try assumption; apply blanks_end; assumption). cbn [rbind fst snd].
    rewrite blanks_token by exact Hb1. rewrite (nat_token dg) by (try assumption; apply blanks_end; assumption). cbn [rbind fst snd].
    rewrite blanks_token by exact Hb2.
    assert (T : token_ends (g ++ txt ++ g2 ++ str "endobj" ++ s)).
    { rewrite app_assoc. apply token_ends_app; [exact Hte|]. right. apply gap_token_ends; assumption. }
    rewrite (word_token (str "obj") _ word_obj T). cbn [rbind]. change (fst (d (str "obj"), str "obj")) with TyObjBegin. cbv iota.
    rewrite stoull_digits by assumption. cbn [rbind]. rewrite stoull_digits by (try assumption; change (2 ^ 64) with 18446744073709551616; lia). cbn [rbind].
    unfold to_u16 at 1. replace (Z.of_N (decimal_value dg) <? 0)%Z with false by lia. replace (Z.of_N (decimal_value dg) <=? 65535)%Z with true by lia. cbn [rbind].
    rewrite N2Z.id. rewrite (body_parsed opening_length g txt o g2 s) by assumption. cbn [rbind]. cbn zeta. rewrite (body_noted _ _ txt o) by exact Hb. cbn [rbind].
    rewrite skip_gap by exact Hg2. rewrite (tok_keyword d parser_kw (str "endobj") s) by (first [exact Hword|cbn; tauto]). cbn [rbind fst snd note]. reflexivity.
  - rewrite <- !app_assoc.
    assert (T : token_ends (g ++ txt ++ s)).
    { destruct (dict_head txt m Ho) as (t & es & -> & _). rewrite <- !app_assoc. cbn [app]. destruct g as [|x g]; [right; cbn; tauto|apply gap_token_ends; [exact Hg|discriminate]]. }
    rewrite (word_token (str "trailer") (g ++ txt ++ s)); [|split; [apply Forall_forall; intros c Hc; split; cbn in *; lia|split; [discriminate|cbn; lia]]|exact T].
    cbn [rbind]. change (fst (d (str "trailer"), str "trailer")) with TyTrailer. cbv iota. rewrite (dictionary_parsed g txt m s) by assumption. cbn [rbind note]. reflexivity.
  - specialize (Hword eq_refl). rewrite <- !app_assoc.
    rewrite (word_token (str "startxref") (g ++ ds ++ s)); [|split; [apply Forall_forall; intros c Hc; split; cbn in *; lia|split; [discriminate|cbn; lia]]|apply gap_token_ends; assumption].
    cbn [rbind]. change (fst (d (str "startxref"), str "startxref")) with TyStartXref. cbv iota. rewrite skip_gap by exact Hg.
    destruct Hds as (Hn & Hd). rewrite (tok_nat d) by assumption. cbn [rbind fst snd]. rewrite sign_signed by assumption. cbn [rbind]. reflexivity.
  - rewrite <- !app_assoc. rewrite (nat_token d1) by (try assumption; apply blanks_end; assumption). cbn [rbind fst snd].
    rewrite blanks_token by exact Hb1.
    assert (T : token_ends (b2 ++ e ++ s)) by (destruct b2; [exact (eol_end e s He)|apply blanks_end; [exact Hb2|discriminate]]).
    rewrite (nat_token d2) by assumption. cbn [rbind fst snd]. rewrite blanks_token by exact Hb2.
    destruct (eol_read e s He) as (r & E & Hr). rewrite E. cbn [rbind fst snd pass_line]. apply resume. exact Hr.
  - rewrite <- !app_assoc. rewrite (nat_token d1) by (try assumption; apply blanks_end; assumption). cbn [rbind fst snd].
    rewrite blanks_token by exact Hb1. rewrite (nat_token d2) by (try assumption; apply blanks_end; assumption). cbn [rbind fst snd].
    rewrite blanks_token by exact Hb2. assert (P : plain_word w) by (split; [|split]; assumption).
    assert (T : token_ends (line ++ e ++ s)).
    { rewrite app_assoc. apply token_ends_more; [exact Hte|]. intros X. apply app_eq_nil in X. destruct X as [_ X]. apply (line_end_ne e He X). }
    rewrite (word_token w _ P T). cbn [rbind]. destruct (pass_word (b2 ++ w ++ line ++ e ++ s) w line e s P Hline He) as (r & E & Hr).
    assert (N1 : d w <> TyObjBegin) by (intros X; apply dictionary_obj in X; congruence).
    cbn [fst snd]. rewrite E. destruct (d w); try congruence; cbn [rbind]; apply resume; exact Hr.
  - rewrite <- !app_assoc. assert (P : plain_word w) by (split; [|split]; assumption).
    assert (T : token_ends (line ++ e ++ s)).
    { rewrite app_assoc. apply token_ends_more; [exact Hte|]. intros X. apply app_eq_nil in X. destruct X as [_ X]. apply (line_end_ne e He X). }
    rewrite (word_token w _ P T). cbn [rbind]. destruct (pass_word (lead ++ w ++ line ++ e ++ s) w line e s P Hline He) as (r & E & Hr).
    destruct (dictionary_word w P) as (N1 & N2 & N3 & N4). pose proof (d_not_eol w) as N5. cbn [fst snd].
    destruct (d w); try congruence; try (specialize (N3 eq_refl); congruence); try (specialize (N4 eq_refl); congruence);
      rewrite E; cbn [rbind]; apply resume; exact Hr.
Qed.

(** ** the whole text *)
Fixpoint notes (l : list (nat * event)) (st : found) : found :=
  match l with
  | [] => st
  | (p, x) :: t => notes t (note p x st)
  end.
Lemma pieces_steps : forall pos text l, pieces pos text l -> forall total s st, token_ends s -> total = (pos + List.length (text ++ s))%nat ->
  search total (text ++ s) st = search total s (notes l st).
Proof.
  intros pos text l H. induction H as [pos|pos lead core ev word more l Hlead Hcore Hsep Hword Hm IH]; intros total s st Hs Ht; [reflexivity|].
  rewrite <- !app_assoc in *. rewrite (piece_step lead core ev word Hlead Hcore Hsep).
  - assert (P : (total - List.length (lead ++ core ++ more ++ s) = pos)%nat) by lia. rewrite P.
    rewrite IH; [destruct ev; reflexivity|exact Hs|]. rewrite !app_length in *. lia.
  - intros X. apply token_ends_app; auto.
Qed.
Lemma file_end_stops : forall fin, file_end fin -> forall total st, search total fin st = Ok st.
Proof.
  intros fin H total st. destruct H as [l Hl|l body Hl Hb].
  - rewrite <- (app_nil_r l). rewrite search_eq. unfold search_round. rewrite lead_token; [|exact Hl|cbn; lia]. reflexivity.
  - rewrite search_eq. unfold search_round. rewrite lead_token; [|exact Hl|cbn; lia].
    change (read_token d (37 :: body)) with (read_token_aux d true body). rewrite <- (app_nil_r body), comment_body by exact Hb. reflexivity.
Qed.
Lemma find_all_pieces : forall left text fin l, pieces 0 text l -> file_end fin ->
  find_all_objects d decode left (text ++ fin) = Ok (notes l {| f_held := []; f_trailer := []; f_streams := []; f_left := left |}).
Proof.
  intros left text fin l Hp Hf. change (search (List.length (text ++ fin)) (text ++ fin) {| f_held := []; f_trailer := []; f_streams := []; f_left := left |} =
    Ok (notes l {| f_held := []; f_trailer := []; f_streams := []; f_left := left |})).
  rewrite (pieces_steps 0 text l Hp); [apply file_end_stops; exact Hf| |reflexivity].
  assert (L : forall l s, lead_in l -> token_ends s -> token_ends (l ++ s)).
  { intros x s Hx. destruct Hx; [auto| |]; intros _; cbn [app token_ends]; [left; unfold blank in H; cbn in *; tauto|right; cbn; tauto]. }
  destruct Hf as [x Hx|x body Hx _]; [rewrite <- (app_nil_r x)|]; apply L; try exact Hx; [exact I|right; cbn; tauto].
Qed.
Lemma find_all_then : forall left text l s, pieces 0 text l -> token_ends s ->
  find_all_objects d decode left (text ++ s) = search (List.length (text ++ s)) s (notes l {| f_held := []; f_trailer := []; f_streams := []; f_left := left |}).
Proof.
  intros left text l s Hp Hs. change (search (List.length (text ++ s)) (text ++ s) {| f_held := []; f_trailer := []; f_streams := []; f_left := left |} =
    search (List.length (text ++ s)) s (notes l {| f_held := []; f_trailer := []; f_streams := []; f_left := left |})).
  apply (pieces_steps 0 text l Hp); [exact Hs|reflexivity].
Qed.
End Loop.

(** ** what was noted *)
Lemma find_hold : forall n e o l, find (fun x => xnum (fst x) =? n) (hold e o l) =
  if xnum e =? n then Some (e, o) else find (fun x => xnum (fst x) =? n) l.
Proof.
  intros n e o l. induction l as [|x l IH]; cbn [hold find fst]; [reflexivity|].
  destruct (xnum e <? xnum (fst x)) eqn:E1; [cbn [find fst]; reflexivity|].
  destruct (xnum e =? xnum (fst x)) eqn:E2; cbn [find fst].
  - destruct (xnum e =? n) eqn:E3; [reflexivity|]. replace (xnum (fst x) =? n) with false by lia. reflexivity.
  - rewrite IH. destruct (xnum e =? n) eqn:E3; [|reflexivity]. replace (xnum (fst x) =? n) with false by lia. reflexivity.
Qed.
Definition as_held (n : N) (x : nat * N * obj) : xentry * obj :=
  let '(pos, g, o) := x in ({| xnum := n; xgen := g; xdata := KUsed (Z.of_nat pos) true |}, o).
Lemma notes_facts : forall l st, f_streams (notes l st) = f_streams st /\ f_left (notes l st) = f_left st /\
  f_trailer (notes l st) = match last_trailer l with Some m => m | None => f_trailer st end /\
  forall n, find (fun x => xnum (fst x) =? n) (f_held (notes l st)) =
    match last_object n l with Some x => Some (as_held n x) | None => find (fun x => xnum (fst x) =? n) (f_held st) end.
Proof.
  induction l as [|[p [num gen o|m]] l IH]; intros st; cbn [notes last_trailer last_object]; [auto| |].
  - destruct (IH (note p (Object num gen o) st)) as (H1 & H2 & H3 & H4). cbn [note f_streams f_left f_trailer f_held] in *. repeat split; auto.
    intros n. rewrite H4. destruct (last_object n l) as [[[pos g] o']|]; [reflexivity|]. rewrite find_hold. cbn [xnum].
    destruct (num =? n) eqn:E; [|reflexivity]. cbn [as_held]. replace n with num by lia. reflexivity.
  - destruct (IH (note p (Trailer m) st)) as (H1 & H2 & H3 & H4). cbn [note f_streams f_left f_trailer f_held] in *. repeat split; auto.
    rewrite H3. destruct (last_trailer l); reflexivity.
Qed.
Lemma xfind_held : forall n l, xfind n (map fst (l : list (xentry * obj))) = match find (fun x => xnum (fst x) =? n) l with Some x => Some (fst x) | None => None end.
Proof. intros n. induction l as [|x l IH]; cbn [map xfind find]; [reflexivity|]. destruct (xnum (fst x) =? n); [reflexivity|exact IH]. Qed.

(** ** the object at a noted position *)
Lemma object_at : forall rl lead dn b1 dg b2 g txt o g2 s, lead_in lead -> digits_text dn -> decimal_value dn < 2 ^ 63 -> digits_text dg -> decimal_value dg <= 65535 ->
  Forall blank b1 -> b1 <> [] -> Forall blank b2 -> b2 <> [] -> gap g -> body_text txt o -> token_ends (g ++ txt) -> gap g2 -> g2 <> [] -> token_ends s ->
  read_indirect_object d rl (lead ++ (dn ++ b1 ++ dg ++ b2 ++ str "obj" ++ g ++ txt ++ g2 ++ str "endobj") ++ s) = Ok (decimal_value dn, decimal_value dg, o, s).
Proof.
  intros rl lead dn b1 dg b2 g txt o g2 s Hlead Hdn Hdv Hdg Hdgv Hb1 Hb1n Hb2 Hb2n Hg Hb Hte Hg2 Hg2n Hs. rewrite <- !app_assoc.
  unfold read_indirect_object, expect_skip.
  assert (Hc : hd 0 (dn ++ b1 ++ dg ++ b2 ++ str "obj" ++ g ++ txt ++ g2 ++ str "endobj" ++ s) <> 10).
  { destruct Hdn as (Hn & Hd). destruct dn as [|c dn]; [congruence|]. cbn [app hd]. inversion Hd as [|? ? Hc _]; subst. unfold decimal_digit in Hc. lia. }
  assert (E1 : read_token_skip d (lead ++ dn ++ b1 ++ dg ++ b2 ++ str "obj" ++ g ++ txt ++ g2 ++ str "endobj" ++ s) = Ok ((TyInt, dn), b1 ++ dg ++ b2 ++ str "obj" ++ g ++ txt ++ g2 ++ str "endobj" ++ s)).
  { apply skip_of_read; [|discriminate]. rewrite (lead_token (fun _ _ => Throw EGeneral) ltac:(discriminate)) by (tauto || exact Hlead). apply (nat_token (fun _ _ => Throw EGeneral) ltac:(discriminate)); [exact Hdn|]. apply blanks_end; assumption. }
  rewrite E1. cbn [rbind fst snd ttype_eqb].
  assert (E2 : read_token_skip d (b1 ++ dg ++ b2 ++ str "obj" ++ g ++ txt ++ g2 ++ str "endobj" ++ s) = Ok ((TyInt, dg), b2 ++ str "obj" ++ g ++ txt ++ g2 ++ str "endobj" ++ s)).
  { apply skip_of_read; [|discriminate]. rewrite blanks_token by exact Hb1. apply (nat_token (fun _ _ => Throw EGeneral) ltac:(discriminate)); [exact Hdg|]. apply blanks_end; assumption. }
  rewrite E2. cbn [rbind fst snd ttype_eqb].
  assert (T : token_ends (g ++ txt ++ g2 ++ str "endobj" ++ s)).
  { rewrite app_assoc. apply token_ends_app; [exact Hte|]. right. apply gap_token_ends; assumption. }
  assert (E3 : read_token_skip d (b2 ++ str "obj" ++ g ++ txt ++ g2 ++ str "endobj" ++ s) = Ok ((TyObjBegin, str "obj"), g ++ txt ++ g2 ++ str "endobj" ++ s)).
  { apply skip_of_read; [|discriminate]. rewrite blanks_token by exact Hb2. exact (word_token (fun _ _ => Throw EGeneral) ltac:(discriminate) (str "obj") _ word_obj T). }
  rewrite E3. cbn [rbind fst snd ttype_eqb]. rewrite (body_parsed rl g txt o g2 s) by assumption. cbn [rbind].
  rewrite skip_gap by exact Hg2. rewrite (tok_keyword d parser_kw (str "endobj") s) by (first [exact Hs|cbn; tauto]). cbn [rbind fst snd].
  change (ttype_eqb (d (str "endobj")) TyObjEnd) with true. cbv iota. cbn [rbind].
  destruct Hdn as (Hn & Hd). destruct Hdg as (Hgn & Hgd). rewrite !sign_signed by (try assumption; change (2 ^ 63) with 9223372036854775808; lia). cbn [rbind].
  unfold to_u64, to_u16. replace (Z.of_N (decimal_value dn) <? 0)%Z with false by lia. cbn [rbind]. replace (Z.of_N (decimal_value dg) <? 0)%Z with false by lia.
  replace (Z.of_N (decimal_value dg) <=? 65535)%Z with true by lia. cbn [rbind]. rewrite !N2Z.id. reflexivity.
Qed.
Lemma noted_at : forall pos text l, pieces pos text l -> forall s, token_ends s -> forall p n g o, In (p, Object n g o) l -> n < 2 ^ 63 ->
  forall before, List.length before = pos -> forall rl, load_entry d rl (before ++ text ++ s) {| xnum := n; xgen := g; xdata := KUsed (Z.of_nat p) true |} = Ok (n, g, o).
Proof.
  intros pos text l H. induction H as [pos|pos lead core ev word more l Hlead Hcore Hsep Hword Hm IH]; intros s Hs p n g o Hin Hn before Hb rl; [destruct Hin|].
  assert (Hrest : In (p, Object n g o) l -> load_entry d rl (before ++ (lead ++ core ++ more) ++ s) {| xnum := n; xgen := g; xdata := KUsed (Z.of_nat p) true |} = Ok (n, g, o)).
  { intros Hi. specialize (IH s Hs p n g o Hi Hn (before ++ lead ++ core)). rewrite !app_length in IH. specialize (IH ltac:(lia) rl). rewrite <- !app_assoc in *. exact IH. }
  destruct Hcore as [e He|dn b1 dg b2 g0 txt o0 g2 Hdn Hdv Hdg Hdgv Hb1 Hb1n Hb2 Hb2n Hg Hbt Hte Hg2 Hg2n| | | | | ]; try (apply Hrest; exact Hin).
  - destruct Hin as [E|Hin]; [|apply Hrest; exact Hin].
    assert (E0 := f_equal fst E). assert (E1 := f_equal snd E). cbn [fst snd] in E0, E1. injection E1 as E2 E3 E4. subst p n g o.
    unfold load_entry. cbn [xdata]. rewrite Nat2Z.id. rewrite <- Hb, skipn_exact.
    rewrite <- (app_assoc lead). rewrite <- (app_assoc _ more s).
    rewrite (object_at rl lead dn b1 dg b2 g0 txt o0 g2 (more ++ s)) by (first [assumption|apply token_ends_app; [apply Hword; reflexivity|right; exact Hs]]). reflexivity.
  - destruct Hin as [E|Hin]; [congruence|]. apply Hrest; exact Hin.
Qed.

(** ** written objects as pieces *)
Lemma digits_ok : forall n, digits_text (to_string_N n) /\ decimal_value (to_string_N n) = n.
Proof. intros n. destruct (padded_decimal 0 n) as (H1 & H2 & H3). repeat split; assumption. Qed.
Lemma stored_body : forall o, stored o -> not_xref o -> body_text (to_pdf o) o.
Proof.
  intros o H Hx. destruct H as [o Ho|m data Hm Hl]; [apply bt_direct, to_pdf_text, Ho|]. apply bt_stream; [apply written_stream_text; assumption|exact Hx].
Qed.
Lemma write_object_core : forall num gen o, num < 2 ^ 64 -> gen <= 65535 -> stored o -> not_xref o -> exists core,
  write_object num gen o = core ++ [10] /\ core_text core (Some (Object num gen o)) true /\ hd 0 core <> 10.
Proof.
  intros num gen o Hn Hg Ho Hx. destruct (digits_ok num) as (Dn & En). destruct (digits_ok gen) as (Dg & Eg).
  exists (to_string_N num ++ [32] ++ to_string_N gen ++ [32] ++ str "obj" ++ [10] ++ to_pdf o ++ [10] ++ str "endobj"). repeat split.
  - unfold write_object. rewrite <- !app_assoc. reflexivity.
  - replace (Some (Object num gen o)) with (Some (Object (decimal_value (to_string_N num)) (decimal_value (to_string_N gen)) o)) by (rewrite En, Eg; reflexivity).
    assert (B : Forall blank [32]) by (constructor; [unfold blank; cbn; tauto|constructor]).
    apply ct_object; try assumption; try discriminate; try (rewrite ?En, ?Eg; assumption); try exact gap10.
    + apply stored_body; assumption.
    + left. cbn. tauto.
  - destruct Dn as (Hne & Hd). destruct (to_string_N num) as [|c t]; [congruence|]. cbn [app hd]. inversion Hd as [|? ? Hc _]; subst. unfold decimal_digit in Hc. lia.
Qed.
Lemma written_pieces : forall l q lead pos, lead_in lead -> StronglySorted N.lt (map (fun p => xnum (fst p)) l) ->
  Forall (fun p => entry_saveable (fst p) /\ (used_in_use (fst p) -> stored (snd p) /\ not_xref (snd p))) l ->
  exists text fin evs, lead ++ fst (write_objects None q l) = text ++ fin /\ file_end fin /\ pieces pos text evs /\ last_trailer evs = None /\
    (forall e o, In (e, o) l -> used_in_use e -> exists p, last_object (xnum e) evs = Some (p, xgen e, o)) /\
    (forall n, last_object n evs <> None -> exists e o, In (e, o) l /\ used_in_use e /\ xnum e = n).
Proof.
  induction l as [|[e o] l IH]; intros q lead pos Hlead Hs Hl.
  - exists [], lead, []. cbn [write_objects fst]. rewrite app_nil_r. repeat split; try constructor; [exact Hlead| |]; cbn; intros; try tauto; congruence.
  - inversion Hs as [|? ? Hs1 Hs2]; subst. inversion Hl as [|? ? ((Hn & Hg & Hd) & Ho) Hl1]; subst. cbn [fst snd map] in *. cbn [write_objects is_self].
    destruct (xdata e) as [next|off u|a b] eqn:Ed; [|subst u|destruct Hd].
    + destruct (IH q lead pos Hlead Hs1 Hl1) as (text & fin & evs & E & Hf & Hp & Ht & Hall & Honly).
      destruct (write_objects None q l) as [txt l2]. cbn [fst] in *. exists text, fin, evs. repeat split; try assumption.
      * intros e' o' [X|Hin] Hu; [|eauto]. assert (e' = e) by congruence. subst e'. unfold used_in_use in Hu. rewrite Ed in Hu. destruct Hu.
      * intros n Hx. destruct (Honly n Hx) as (e' & o' & A & B & C). exists e', o'. cbn. auto.
    + set (b := write_object (xnum e) (xgen e) o).
      assert (Hu : used_in_use e) by (unfold used_in_use; rewrite Ed; exact I). destruct (Ho Hu) as (Hst & Hx).
      destruct (write_object_core (xnum e) (xgen e) o ltac:(change (2 ^ 64) with 18446744073709551616; change (2 ^ 63) with 9223372036854775808 in Hn; lia) Hg Hst Hx) as (core & Eb & Hcore & Hhd).
      destruct (IH (q + N.of_nat (List.length b)) [] (pos + List.length lead + List.length core + List.length (@nil N) + List.length [10])%nat li_nil Hs1 Hl1) as (text & fin & evs & E & Hf & Hp & Ht & Hall & Honly).
      destruct (write_objects None (q + N.of_nat (List.length b)) l) as [txt l2]. cbn [fst app] in *.
      exists (lead ++ core ++ [] ++ [10] ++ text), fin, ((pos, Object (xnum e) (xgen e) o) :: evs). repeat split; try assumption.
      * unfold b. rewrite Eb, E. rewrite <- !app_assoc. reflexivity.
      * apply (pc_piece pos lead core (Some (Object (xnum e) (xgen e) o)) true); try assumption; [tauto|intros _; left; cbn; tauto|].
        apply (pc_piece _ [] [10] None false); try assumption; [constructor|apply ct_line_end; unfold line_end; cbn; tauto|cbn; lia|discriminate].
      * cbn [last_object]. intros e' o' [X|Hin] Hu'.
        -- assert (e' = e) by congruence. assert (o' = o) by congruence. subst e' o'.
           destruct (last_object (xnum e) evs) as [x|] eqn:El.
           ++ exfalso. destruct (Honly (xnum e) ltac:(congruence)) as (e' & o' & A & _ & C). rewrite Forall_forall in Hs2.
              specialize (Hs2 (xnum e')). assert (xnum e < xnum e') by (apply Hs2; apply (in_map (fun p : xentry * obj => xnum (fst p)) l (e', o')), A). lia.
           ++ rewrite N.eqb_refl. eauto.
        -- destruct (Hall e' o' Hin Hu') as (p & Ep). rewrite Ep. eauto.
      * cbn [last_object]. intros n Hx'. destruct (last_object n evs) as [x|] eqn:El.
        -- destruct (Honly n ltac:(congruence)) as (e' & o' & A & B & C). exists e', o'. cbn. auto.
        -- destruct (xnum e =? n) eqn:En; [|congruence]. exists e, o. cbn. repeat split; auto. lia.
Qed.

(** ** no end marker: the last offset is not found *)
Lemma window_end : forall p a : bytes, (List.length a <= N.to_nat 16384)%nat -> exists p', skipn (List.length (p ++ a) -
  (if (List.length (p ++ a) <? trailer_window)%nat then List.length (p ++ a) else trailer_window)) (p ++ a) = p' ++ a.
Proof.
  intros p a Ha. unfold trailer_window. set (w := N.to_nat 16384) in *. clearbody w. rewrite app_length.
  destruct (List.length p + List.length a <? w)%nat eqn:E.
  - rewrite Nat.sub_diag. exists p. reflexivity.
  - rewrite skipn_app. replace (List.length p + List.length a - w - List.length p)%nat with O by (apply Nat.ltb_ge in E; lia). cbn [skipn]. eexists. reflexivity.
Qed.
Lemma no_marker : forall p, last_xref_offset (p ++ str "endobj" ++ [10]) = Throw EGeneral.
Proof.
  intros p. unfold last_xref_offset. cbn zeta. destruct (window_end p (str "endobj" ++ [10]) ltac:(cbn; lia)) as (p' & E). rewrite E.
  rewrite rev_app_distr. change (rev (str "endobj" ++ [10])) with (10 :: 106 :: 98 :: str "odne"). cbn [app]. generalize (str "odne" ++ rev p') as t. intros t.
  unfold read_last_xref_offset. cbn [List.length]. cbn [rev_token_skip rev_token N.eqb Pos.eqb orb].
  change (rev_unknown 106 (98 :: t)) with (let '(w, r) := span (fun x => negb (is_white x)) (98 :: t) in
    (if bytes_eqb (106 :: w) (str "FOE%%") then RtEofMarker else if bytes_eqb (106 :: w) (str "ferxtrats") then RtStartXref else RtUnknown, r)).
  destruct (span (fun x => negb (is_white x)) (98 :: t)) as [w r]. cbn [bytes_eqb str]. cbn [rbind]. reflexivity.
Qed.

Lemma body_end : forall l q, Forall (fun p => entry_saveable (fst p)) l -> (exists p, In p l /\ used_in_use (fst p)) ->
  exists b, fst (write_objects None q l) = b ++ str "endobj" ++ [10].
Proof.
  induction l as [|[e o] l IH]; intros q Hl (p & Hin & Hu); [destruct Hin|].
  inversion Hl as [|? ? (_ & _ & Hd) Hl1]; subst. cbn [fst] in *. cbn [write_objects is_self].
  assert (Hex : forall q, (exists p, In p l /\ used_in_use (fst p)) \/ fst (write_objects None q l) = []).
  { clear - Hl1. induction l as [|[e o] l IH]; intros q; [right; reflexivity|]. inversion Hl1 as [|? ? (_ & _ & Hd) Hl2]; subst. cbn [write_objects is_self fst] in *.
    destruct (xdata e) as [next|off u|a b] eqn:Ed; [|subst u|destruct Hd].
    - destruct (IH Hl2 q) as [(p & A & B)|A]; [left; exists p; cbn; auto|]. right. destruct (write_objects None q l). exact A.
    - left. exists (e, o). cbn. split; [auto|]. unfold used_in_use. rewrite Ed. exact I. }
  destruct (xdata e) as [next|off u|a b] eqn:Ed; [|subst u|destruct Hd].
  - destruct Hin as [<-|Hin]; [unfold used_in_use in Hu; cbn [fst] in Hu; rewrite Ed in Hu; destruct Hu|].
    destruct (IH q Hl1 (ex_intro _ p (conj Hin Hu))) as (b & E). destruct (write_objects None q l). exists b. exact E.
  - set (q2 := q + N.of_nat (List.length (write_object (xnum e) (xgen e) o))). destruct (Hex q2) as [Hp|E].
    + destruct (IH q2 Hl1 Hp) as (b & E). destruct (write_objects None q2 l). cbn [fst] in *. rewrite E. rewrite app_assoc. eauto.
    + destruct (write_objects None q2 l). cbn [fst] in *. rewrite E, app_nil_r. unfold write_object.
      exists (to_string_N (xnum e) ++ [32] ++ to_string_N (xgen e) ++ [32] ++ str "obj" ++ [10] ++ to_pdf o ++ [10]). rewrite <- !app_assoc. reflexivity.
Qed.
Lemma same_not_xref : forall o o', same_object o o' -> not_xref o -> not_xref o'.
Proof.
  intros o o' H. destruct H as [o _|m m' data H1 H2]; [auto|]. cbn [not_xref]. intros Hx v Hv. apply Hx. apply H1; [discriminate|exact Hv].
Qed.
Lemma word_saw_end : forall w s, saw_end s (d w, w) [] = true.
Proof. intros w s. unfold parser_dictionary. repeat cif; reflexivity. Qed.

(** Incremental saves of hybrid-reference files. *)
From Coq Require Import List NArith ZArith Bool Lia String Sorted.
From Verif.Model Require Import Base Char Numbers SMap Object Token Parser Arith Containers Xref StartXref Header FileWrite Chain Merge Update Hybrid.
From Verif.Spec Require Import Strings Grammar Xref FileWrite Chain Merge Update Hybrid.
From Verif.Proof Require Import Tac Numbers Parser Writer StreamObj Xref StartXref FileWrite Chain Update.
Import ListNotations.
Local Open Scope N_scope.

Definition hybridised (s : section) (h : list xentry) : section :=
  {| s_kind := STable; s_entries := s_entries s; s_hybrid := Some h; s_trailer := s_trailer s |}.

Section Reading.
Variable decode : list (bytes * obj) -> bytes -> res bytes.

Lemma parse_same : forall c n g m data c1 sec, parse_stream_section decode c n g m data = Ok (c1, sec) ->
  s_kind sec = SStream /\ s_hybrid sec = None /\
  (names_self n g (s_entries sec) = true \/ (List.length c < List.length c1)%nat \/ (c1 = c /\ exists e off u, chain_entry n g c = Some e /\ xdata e = KUsed off u)) /\
  forall c', names_self n g (s_entries sec) = true \/ (exists e off u, chain_entry n g c' = Some e /\ xdata e = KUsed off u) ->
    parse_stream_section decode c' n g m data = Ok (c', sec).
Proof.
  intros c n g m data c1 sec H. unfold parse_stream_section in H |- *.
  apply rbind_ok in H. destruct H as (w & Ew & H). apply rbind_ok in H. destruct H as (size & Es & H). apply rbind_ok in H. destruct H as (index & Ei & H).
  apply rbind_ok in H. destruct H as (body & Eb & H). apply rbind_ok in H. destruct H as (entries & Ee & H).
  destruct (names_self n g entries) eqn:En.
  - apply Ok_inj in H. assert (E2 := f_equal snd H). cbn [snd] in E2. subst sec. split; [reflexivity|]. split; [reflexivity|]. split; [left; exact En|].
    intros c' _. rewrite Ew. cbn [rbind]. rewrite Es. cbn [rbind]. rewrite Ei. cbn [rbind]. rewrite Eb. cbn [rbind]. rewrite Ee. cbn [rbind]. rewrite En. reflexivity.
  - assert (Hs : sec = {| s_kind := SStream; s_entries := entries; s_hybrid := None; s_trailer := m |} /\
      ((List.length c < List.length c1)%nat \/ (c1 = c /\ exists e off u, chain_entry n g c = Some e /\ xdata e = KUsed off u))).
    { destruct (chain_entry n g c) as [e|] eqn:Ec.
      - rewrite Ec in H. destruct (xdata e) eqn:Ed; try discriminate. apply Ok_inj in H. assert (E1 := f_equal fst H). assert (E2 := f_equal snd H). cbn [fst snd] in E1, E2.
        split; [symmetry; exact E2|]. right. split; [symmetry; exact E1|]. eexists. eexists. eexists. split; [reflexivity|exact Ed].
      - destruct (chain_entry n g (c ++ _)) as [e|] eqn:Ec'; [|discriminate]. destruct (xdata e); try discriminate. apply Ok_inj in H.
        assert (E1 := f_equal fst H). assert (E2 := f_equal snd H). cbn [fst snd] in E1, E2. split; [symmetry; exact E2|]. left. rewrite <- E1, app_length. cbn [List.length]. lia. }
    destruct Hs as [-> Hs]. cbn [s_kind s_hybrid s_entries]. split; [reflexivity|]. split; [reflexivity|]. split; [right; exact Hs|].
    intros c' [Hc|(e & off & u & Hc & Hd)]; [congruence|]. rewrite Ew. cbn [rbind]. rewrite Es. cbn [rbind]. rewrite Ei. cbn [rbind]. rewrite Eb. cbn [rbind].
    rewrite Ee. cbn [rbind]. rewrite En, Hc, Hc, Hd. reflexivity.
Qed.

Lemma read_hybrid_section : forall before n g hm hdata rest c, n < 2 ^ 63 -> g <= 65535 -> writable (ODict hm) ->
  In (str "Length", OInt (Z.of_nat (List.length hdata))) hm ->
  read_section parser_dictionary decode (before ++ write_object n g (OStream hm hdata) ++ rest) c (Z.of_nat (List.length before)) =
  parse_stream_section decode c n g hm hdata.
Proof.
  intros before n g hm hdata rest c Hn Hg Hw Hl. unfold read_section.
  assert (Hr := read_written_object opening_length n g (OStream hm hdata) rest Hn Hg (sd_stream hm hdata Hw Hl)).
  rewrite at_exact by (intros E; rewrite E in Hr; vm_compute in Hr; discriminate).
  assert (Hp : peek_type_skip parser_dictionary (write_object n g (OStream hm hdata) ++ rest) = Ok TyInt).
  { unfold read_indirect_object in Hr. apply rbind_ok in Hr. destruct Hr as ([nv r1] & Hr & _). unfold expect_skip in Hr. apply rbind_ok in Hr.
    destruct Hr as ([tk r] & Hr & Hc). unfold peek_type_skip. rewrite Hr. cbn [rbind]. destruct (ttype_eqb (fst tk) TyInt) eqn:E; [|discriminate].
    f_equal. destruct (fst tk); try discriminate E. reflexivity. }
  rewrite Hp. cbn [rbind]. change (ttype_eqb TyInt TyXref) with false. cbv iota. rewrite Hr. cbn [rbind]. reflexivity.
Qed.
End Reading.

Lemma incremental_extends : forall file c file', write_incremental file c = Ok file' -> exists p, file' = file ++ p.
Proof.
  intros file c file' Hi. unfold write_incremental in Hi. apply rbind_ok in Hi. destruct Hi as ([t mm] & _ & Hi). apply rbind_ok in Hi. destruct Hi as ([o1 o2] & Hi & H2). apply Ok_inj in H2. subst o1.
  unfold append_section in Hi. apply rbind_ok in Hi. destruct Hi as (l1 & _ & Hi). destruct (write_objects None _ l1) as [body l2]. apply rbind_ok in Hi. destruct Hi as (tb & _ & Hi).
  apply Ok_inj in Hi. assert (E := f_equal fst Hi). cbn [fst] in E. rewrite <- app_assoc in E. eexists. symmetry. exact E.
Qed.

(** what appending the section gives, for a trailer that names a hybrid stream *)
Lemma table_read : forall decode rl out l m file off, StronglySorted N.lt (map (fun x => xnum (fst x)) l) ->
  Forall (fun x => entry_saveable (fst x) /\ (forall off, xdata (fst x) = KUsed off true -> storable (snd x))) l ->
  writable (ODict m) -> N.of_nat (List.length l) < 2 ^ 63 -> append_section out l m = Ok (file, off) -> fits file ->
  (0 <= off < 2 ^ 63)%Z /\ last_xref_offset file = Ok off /\ (exists p, file = out ++ p) /\
  exists sec, s_trailer sec = set_size m (N.of_nat (List.length l)) /\ forall suffix, holds_section parser_dictionary rl (file ++ suffix) sec l /\
    (forall c, read_section parser_dictionary decode (file ++ suffix) c off = Ok (c, sec)).
Proof.
  intros decode rl out l m file off Q1 Q2 Q3 Q5 Ha Hfit.
  destruct (append_read decode rl out l m file off Q1 (saveable_used rl _ Q2) Q3 Ha Hfit Q5) as (Hp & L1 & L2 & sec & L3 & L4).
  split; [split; [lia|]|].
  { unfold fits in Hfit. unfold append_section in Ha. apply rbind_ok in Ha. destruct Ha as (l1 & _ & Ha). destruct (write_objects None _ l1) as [body l2].
    apply rbind_ok in Ha. destruct Ha as (table & _ & Ha). apply Ok_inj in Ha. assert (Eo := f_equal fst Ha). assert (Ef := f_equal snd Ha). cbn [fst snd] in Eo, Ef.
    rewrite <- Eo in Hfit. rewrite !app_length in Hfit. rewrite <- Ef. rewrite !app_length. clear - Hfit. lia. }
  split; [exact L1|]. split; [exact Hp|]. exists sec. split; [exact L3|]. intros suffix. destruct (L4 suffix) as [K1 K2]. split; assumption.
Qed.

Lemma hybrid_update : forall decode rl file off0 l m hn hg hm hdata sec0 h s file',
  hybrid_layout file off0 l m hn hg hm hdata ->
  read_chain parser_dictionary decode 1 file off0 = Ok [sec0] -> s_hybrid sec0 = Some h ->
  (forall e, In e h -> xnum e = hn -> exists off u, xdata e = KUsed off u) ->
  f_offset s = off0 -> f_trailer s = set_size m (N.of_nat (List.length l)) ->
  changes_saveable entry_saveable storable [s] -> (exists n, changed_in s n) -> ~ changed_in s hn -> hn <> 0 ->
  N.of_nat (List.length (f_items s)) + 1 < 2 ^ 63 ->
  write_incremental file [s] = Ok file' -> fits file' ->
  exists offset sec1, last_xref_offset file' = Ok offset /\
    (forall f, (2 <= f)%nat -> read_chain parser_dictionary decode f file' offset = Ok [hybridised sec1 h; sec0]) /\
    holds_section parser_dictionary rl file' sec1 (add_all (changes [s]) [list_head]) /\
    exists t0, sec0 = hybridised t0 h /\ holds_section parser_dictionary rl file' t0 l.
Proof.
  intros decode rl file off0 l m hn hg hm hdata sec0 h s file' (before & between & Ha & Hx & Hn1 & Hg1 & Hwh & Hlh & Q1 & Q2 & Q3 & Hp & Q5) Hopen Hh Hself Ho Htr Hsv (n0 & x0 & Hx0 & Hd0 & _) Hnc H0 Hn Hi Hfit.
  destruct (incremental_extends _ _ _ Hi) as (p & Ep).
  assert (Hfit0 : fits file) by (unfold fits in *; rewrite Ep, app_length in Hfit; lia).
  destruct (table_read decode rl _ l m file off0 Q1 Q2 Q3 Q5 Ha Hfit0) as (R1 & R2 & (q & Eq) & t0 & R3 & R4).
  destruct (size_written m (List.length l) Q3 Q5) as (Z1 & Z2 & Z3 & Z4).
  assert (Xm : sm_find (str "XRefStm") (f_trailer s) = Some (OInt (Z.of_nat (List.length before)))) by (rewrite Htr, Z4 by (apply str_bytes || discriminate); exact Hx).
  assert (Pm : sm_find (str "Prev") (f_trailer s) = None) by (rewrite Htr, Z4 by (apply str_bytes || discriminate); apply not_in_find; [exact Q3|apply str_bytes|exact Hp]).
  assert (Hwt : writable (ODict (f_trailer s))) by (rewrite Htr; exact Z1).
  destruct (incremental_read_any decode rl file s [] file' Hsv Hwt ltac:(rewrite Ho; exact R1) ltac:(cbn [flat_map]; rewrite app_nil_r; exact Hn) Hi Hfit)
    as (offn & sec1 & _ & E1 & E2 & E3 & E4 & _ & E6).
  assert (Hany : existsb (fun s => some_dirty (f_items s)) [s] = true).
  { cbn [existsb]. rewrite orb_false_r. unfold some_dirty. apply existsb_exists. exists x0. split; assumption. }
  rewrite Xm in E4. rewrite Pm, Hany, Ho in E6.
  assert (K1 : s_kind sec1 = STable) by apply E3.
  assert (K0 : s_kind t0 = STable) by apply (R4 []).
  assert (Hy0 : s_hybrid t0 = None) by apply (R4 []).
  assert (Hy1 : s_hybrid sec1 = None) by apply E3.
  (* the source *)
  assert (Xt : sm_find (str "XRefStm") (s_trailer t0) = Some (OInt (Z.of_nat (List.length before)))) by (rewrite R3, <- Htr; exact Xm).
  assert (Pt : sm_find (str "Prev") (s_trailer t0) = None) by (rewrite R3, <- Htr; exact Pm).
  destruct (R4 []) as [_ S2]. rewrite app_nil_r in S2. destruct (R4 p) as [S3 S4]. rewrite <- Ep in S3, S4.
  assert (Hin : forall c r, read_section parser_dictionary decode ((before ++ write_object hn hg (OStream hm hdata) ++ between) ++ r) c (Z.of_nat (List.length before)) =
    parse_stream_section decode c hn hg hm hdata).
  { intros c r. rewrite <- !app_assoc. apply read_hybrid_section; assumption. }
  assert (Hin0 : forall c, read_section parser_dictionary decode file c (Z.of_nat (List.length before)) = parse_stream_section decode c hn hg hm hdata) by (intros c; rewrite Eq; apply Hin).
  assert (Hin1 : forall c, read_section parser_dictionary decode file' c (Z.of_nat (List.length before)) = parse_stream_section decode c hn hg hm hdata)
    by (intros c; rewrite Ep, Eq, <- app_assoc; apply Hin).
  unfold read_chain in Hopen. cbn [read_sections] in Hopen. rewrite S2 in Hopen. cbn [rbind app] in Hopen. unfold sm_contains, find_int in Hopen. rewrite Pt in Hopen. cbn [rbind] in Hopen.
  apply rbind_ok in Hopen. destruct Hopen as (c2 & Hh2 & Hmv). cbn [read_hybrids] in Hh2. unfold sm_contains, find_int in Hh2. rewrite K0, Xt in Hh2. cbn [int_value rbind app] in Hh2.
  rewrite Hin0 in Hh2. apply rbind_ok in Hh2. destruct Hh2 as ([c1 hs] & Hps & Hh2).
  destruct (parse_same decode _ _ _ _ _ _ _ Hps) as (P1 & P2 & P3 & P4). rewrite P1 in Hh2. cbn [rbind List.length Nat.add] in Hh2. apply Ok_inj in Hh2.
  apply Ok_inj in Hmv. rewrite <- Hh2 in Hmv. cbn [app move_virtual s_kind] in Hmv.
  assert (Es0 : sec0 = hybridised t0 (s_entries hs)) by (unfold hybridised; congruence).
  assert (Esk : skipn 1 c1 = []) by congruence.
  assert (Eh : s_entries hs = h) by (rewrite Es0 in Hh; cbn [hybridised s_hybrid] in Hh; congruence).
  rewrite Eh in *.
  assert (Hlen1 : (List.length c1 <= 1)%nat) by (destruct c1 as [|a [|b c1]]; cbn in *; try lia; discriminate).
  assert (Hsrc : names_self hn hg h = true \/ exists e off u, chain_entry hn hg [t0] = Some e /\ xdata e = KUsed off u).
  { destruct P3 as [P3|[P3|(_ & P3)]]; [left; exact P3|cbn [List.length] in P3; lia|right; exact P3]. }
  (* the new section does not list the hybrid stream *)
  assert (Hn1s : xfind hn (s_entries sec1) = None).
  { apply xfind_none. intros x Hxin En. destruct E3 as (_ & _ & T1 & _). destruct (proj1 (T1 hn) (ex_intro _ x (conj Hxin En))) as (y & Hy & Ey).
    apply add_all_in in Hy. destruct Hy as [Hy|[<-|[]]]; [|apply H0; symmetry; exact Ey]. unfold changes in Hy. cbn [flat_map] in Hy. rewrite app_nil_r in Hy.
    apply in_flat_map in Hy. destruct Hy as (z & Hz & Hy). destruct (change_num _ _ Hy) as (D & N1 & _). apply Hnc. exists z. split; [exact Hz|]. split; [exact D|congruence]. }
  assert (F1 : sec_find hn sec1 = None) by (unfold sec_find; rewrite Hn1s, K1, Hy1; reflexivity).
  assert (G1 : parse_stream_section decode [sec1; t0] hn hg hm hdata = Ok ([sec1; t0], hs)).
  { apply P4. destruct Hsrc as [A|A]; [left; exact A|right]. cbn [chain_entry]. rewrite F1. exact A. }
  assert (G2 : parse_stream_section decode [hybridised sec1 h; t0] hn hg hm hdata = Ok ([hybridised sec1 h; t0], hs)).
  { apply P4. destruct Hsrc as [A|A]; [left; exact A|right]. cbn [chain_entry]. unfold sec_find at 1. unfold hybridised at 1 2 3. cbn [s_entries s_kind s_hybrid]. rewrite Hn1s.
    destruct (xfind hn h) as [e|] eqn:Ef; [|exact A]. destruct (xgen e =? hg); [|exact A]. destruct (xfind_some _ _ _ Ef) as [I1 I2]. destruct (Hself e I1 I2) as (o & u & D).
    exists e, o, u. split; [reflexivity|exact D]. }
  exists offn, sec1. split; [exact E1|]. split; [|split; [exact E3|exists t0; split; [exact Es0|exact S3]]].
  intros f Hf. destruct f as [|[|f]]; [lia|lia|]. unfold read_chain. cbn [read_sections]. rewrite E2. cbn [rbind app]. unfold sm_contains, find_int. rewrite E6. cbn [int_value rbind].
  rewrite S4. cbn [rbind app]. rewrite Pt. cbn [rbind read_hybrids]. unfold sm_contains, find_int. rewrite K1, E4. cbn [int_value rbind app].
  rewrite Hin1, G1. cbn [rbind]. rewrite P1. unfold sm_contains, find_int. rewrite K0, Xt. cbn [int_value rbind app]. rewrite Eh.
  change (read_section parser_dictionary decode file' [{| s_kind := STable; s_entries := s_entries sec1; s_hybrid := Some h; s_trailer := s_trailer sec1 |}; t0] (Z.of_nat (List.length before)))
    with (read_section parser_dictionary decode file' [hybridised sec1 h; t0] (Z.of_nat (List.length before))).
  rewrite Hin1, G2. cbn [rbind]. rewrite P1. cbn [rbind List.length Nat.add skipn app move_virtual s_kind]. rewrite Es0, Eh. reflexivity.
Qed.

(** C73: incremental saves of hybrid-reference files. *)
From Coq Require Import List NArith ZArith Bool Lia String Sorted.
From Verif.Model Require Import Base Char Numbers SMap Object Token Parser Arith Containers Xref StartXref Header FileWrite Chain Merge Update Hybrid.
From Verif.Spec Require Import Strings Grammar Xref FileWrite Chain Merge Update Hybrid.
From Verif.Proof Require Import Tac Numbers Parser Writer StreamObj Xref StartXref FileWrite.
From Verif.Proof Require Chain Update Hybrid.
From Verif.Props Require Chain Update.
Import ListNotations.
Local Open Scope N_scope.

(** A hybrid-reference file with one table, changed and saved incrementally: every byte of it is kept, opening the result finds the new
    section and the old one, each with the hybrid stream.  A changed object of the table resolves to its new state; every number that was
    not changed resolves to the entry it had, also when only the hybrid stream lists it, provided the table and the hybrid stream do not
    list it differently; objects only the table lists load as they did. *)
Theorem C73_hybrid_update_partial : forall decode rl file off0 l m hn hg hm hdata sec0 h s hidden file',
  hybrid_layout file off0 l m hn hg hm hdata ->
  read_chain parser_dictionary decode 1 file off0 = Ok [sec0] -> s_hybrid sec0 = Some h ->
  (forall e, In e h -> xnum e = hn -> exists off u, xdata e = KUsed off u) ->
  f_offset s = off0 -> f_trailer s = set_size m (N.of_nat (List.length l)) ->
  changes_saveable entry_saveable storable [s] -> changed_once [s] -> (exists n, changed_in s n) -> ~ changed_in s hn -> hn <> 0 ->
  N.of_nat (List.length (f_items s)) + 1 < 2 ^ 63 ->
  write_incremental_hybrid file [{| h_table := s; h_hidden := hidden |}] = Ok file' -> (Z.of_nat (List.length file') < 2 ^ 63)%Z ->
  (exists more, file' = file ++ more) /\
  exists offset sec1, last_xref_offset file' = Ok offset /\ s_hybrid sec1 = Some h /\
    (forall f, (2 <= f)%nat -> read_chain parser_dictionary decode f file' offset = Ok [sec1; sec0]) /\
    (forall e o, changed_live [s] e o -> exists e' o', resolve_entry (xnum e) (xgen e) [sec1; sec0] = Some e' /\
      load_entry parser_dictionary rl file' e' = Ok (xnum e, xgen e, o') /\ same_object o o') /\
    (forall n g, n <> 0 -> ~ changed_in s n -> agree_on sec0 n -> resolve_entry n g [sec1; sec0] = resolve_entry n g [sec0]) /\
    (forall e o old, In (e, o) l -> xdata e = KUsed old true -> xnum e <> 0 -> ~ changed_in s (xnum e) -> agree_on sec0 (xnum e) ->
      exists e' o', resolve_entry (xnum e) (xgen e) [sec1; sec0] = Some e' /\
        load_entry parser_dictionary rl file' e' = Ok (xnum e, xgen e, o') /\ same_object o o').
Proof.
  intros decode rl file off0 l m hn hg hm hdata sec0 h s hidden file' Hl Hop Hh Hself Ho Htr Hsv Hone Hch Hnc H0 Hn Hi Hfit.
  unfold write_incremental_hybrid in Hi. cbn [map h_table] in Hi.
  destruct (Proof.Hybrid.hybrid_update decode rl file off0 l m hn hg hm hdata sec0 h s file' Hl Hop Hh Hself Ho Htr Hsv Hch Hnc H0 Hn Hi Hfit)
    as (offset & sec1 & E1 & E2 & E3 & t0 & E4 & E5).
  split; [apply (Proof.Hybrid.incremental_extends _ _ _ Hi)|]. exists offset, (Proof.Hybrid.hybridised sec1 h). split; [exact E1|]. split; [reflexivity|]. split; [exact E2|].
  assert (Hlist : forall n x, In x (s_entries sec1) -> xnum x = n -> n = 0 \/ changed_in s n).
  { intros n x Hx En. destruct E3 as (_ & _ & T1 & _). destruct (proj1 (T1 n) (ex_intro _ x (conj Hx En))) as (q & Hq & Eq).
    apply Proof.Update.add_all_in in Hq. destruct Hq as [Hq|[<-|[]]]; [right|left; symmetry; exact Eq]. unfold Proof.Update.changes in Hq. cbn [flat_map] in Hq.
    rewrite app_nil_r in Hq. apply in_flat_map in Hq. destruct Hq as (y & Hy & Hq). destruct (Proof.Update.change_num _ _ Hq) as (D & N1 & _).
    exists y. split; [exact Hy|]. split; [exact D|congruence]. }
  assert (Hsame : forall n g, n <> 0 -> ~ changed_in s n -> agree_on sec0 n ->
    resolve_entry n g [Proof.Hybrid.hybridised sec1 h; sec0] = resolve_entry n g [sec0]).
  { intros n g N0 Nc Ha. unfold resolve_entry. cbn [chain_entry]. unfold sec_find at 1. unfold Proof.Hybrid.hybridised. cbn [s_entries s_kind s_hybrid].
    assert (Hf : xfind n (s_entries sec1) = None) by (apply Proof.Chain.xfind_none; intros x Hx En; destruct (Hlist n x Hx En); contradiction).
    rewrite Hf. destruct (xfind n h) as [e|] eqn:Eh; [|reflexivity]. destruct (Proof.Chain.xfind_some _ _ _ Eh) as [I1 I2].
    assert (Es : sec_find n sec0 = Some e).
    { unfold sec_find. destruct (xfind n (s_entries sec0)) as [e0|] eqn:E0.
      - destruct (Proof.Chain.xfind_some _ _ _ E0) as [J1 J2]. f_equal. exact (Ha h e0 e Hh J1 I1 J2 I2).
      - rewrite E4. cbn [Proof.Hybrid.hybridised s_kind s_hybrid]. exact Eh. }
    rewrite Es. destruct (xgen e =? g); reflexivity. }
  split; [|split; [exact Hsame|]].
  - intros e o Hc. assert (Hin := Proof.Update.changed_listed _ e o Hone Hc). destruct E3 as (K1 & Hy1 & _ & T2). specialize (T2 e o Hin). destruct Hc as (s' & o0 & _ & Hd & _). rewrite Hd in T2.
    destruct T2 as (at_ & o' & F1 & _ & F2 & F3). eexists. exists o'. split; [|split; [exact F2|exact F3]].
    assert (F1' : entry_of (Proof.Hybrid.hybridised sec1 h) (xnum e) {| xnum := xnum e; xgen := xgen e; xdata := KUsed at_ true |}).
    { destruct F1 as [F1|(_ & _ & h' & b & a & Eh & _)]; [left; exact F1|]. congruence. }
    exact (Props.Chain.C24_newest_wins_partial (xnum e) (xgen e) [] _ [sec0] _ ltac:(intros ? ? []) F1' eq_refl).
  - intros e o old Hin Hd N0 Nc Ha. destruct E5 as (_ & Hy & _ & V). specialize (V e o Hin). rewrite Hd in V. destruct V as (at_ & o' & F1 & _ & F2 & F3).
    eexists. exists o'. split; [|split; [exact F2|exact F3]]. rewrite Hsame by assumption.
    assert (F1' : entry_of sec0 (xnum e) {| xnum := xnum e; xgen := xgen e; xdata := KUsed at_ true |}).
    { rewrite E4. destruct F1 as [F1|(_ & _ & h' & b & a & Eh & _)]; [left; exact F1|congruence]. }
    exact (Props.Chain.C24_newest_wins_partial (xnum e) (xgen e) [] sec0 [] _ ltac:(intros ? ? []) F1' eq_refl).
Qed.

(** A change of an object that only a hybrid stream lists has no effect on what is written: whatever the hidden objects are, the result
    is the same. *)
Theorem C73_hidden_changes_ignored : forall file c c', map h_table c = map h_table c' ->
  write_incremental_hybrid file c = write_incremental_hybrid file c'.
Proof. intros file c c' H. unfold write_incremental_hybrid. rewrite H. reflexivity. Qed.

(** *** a hybrid-reference file: objects 1 and 2 in the table, object 3 and the stream, 4, in the hybrid stream *)
Definition C73_before (extra : bytes) : bytes := write_header PDF15 ++ write_object 3 0 (OInt 7) ++ extra.
Definition C73_dict (first : Z) (n : Z) : list (bytes * obj) :=
  [(str "Index", OArr [OInt first; OInt n]); (str "Length", OInt (4 * n)); (str "Size", OInt 5); (str "Type", OName (str "XRef"));
   (str "W", OArr [OInt 1; OInt 2; OInt 1])].
Definition C73_data (extra : bytes) (l : list N) : bytes := flat_map (fun p => [1; 0; p; 0]) (l ++ [N.of_nat (List.length (C73_before extra))]).
Definition C73_trailer (extra : bytes) : list (bytes * obj) := [(str "Root", ORef 1 0); (str "XRefStm", OInt (Z.of_nat (List.length (C73_before extra))))].
Definition C73_table : list (xentry * obj) := [Props.Update.C36_free; (Props.Update.C36_used 1 0, Props.Update.C36_catalog); (Props.Update.C36_used 2 0, OInt 5)].
Definition C73_text : bytes := C73_before [] ++ write_object 4 0 (OStream (C73_dict 3 2) (C73_data [] [15])).
Definition C73_file : bytes := match append_section C73_text C73_table (C73_trailer []) with Ok (f, _) => f | _ => [] end.
Definition C73_sec : section :=
  {| s_kind := STable;
     s_entries := [fst Props.Update.C36_free; Props.Update.C36_used 1 130; Props.Update.C36_used 2 164];
     s_hybrid := Some [Props.Update.C36_used 3 15; Props.Update.C36_used 4 32];
     s_trailer := set_size (C73_trailer []) 3 |}.
(** opened; [two] and [three] say whether objects 2 and 3 were changed, to 6 and 8 *)
Definition C73_source (two three : bool) : hsection :=
  {| h_table := {| f_offset := Props.Update.offset_of C73_file;
                   f_items := [Props.Update.item false Props.Update.C36_free; Props.Update.item false (Props.Update.C36_used 1 130, Props.Update.C36_catalog);
                               Props.Update.item two (Props.Update.C36_used 2 164, OInt (if two then 6 else 5))];
                   f_trailer := set_size (C73_trailer []) 3 |};
     h_hidden := [Props.Update.item three (Props.Update.C36_used 3 15, OInt (if three then 8 else 7))] |}.
Definition C73_update (two three : bool) : bytes := match write_incremental_hybrid C73_file [C73_source two three] with Ok f => f | _ => [] end.

Lemma C73_dict_writable : writable (ODict (C73_dict 3 2)).
Proof.
  apply w_dict.
  - repeat (constructor; cbn; try (apply kl_less; cbn; lia)).
  - repeat constructor; cbn; try discriminate; unfold is_byte; lia.
  - cbn. repeat (constructor; cbn; unfold is_byte; try lia).
Qed.
Lemma C73_trailer_writable : writable (ODict (C73_trailer [])).
Proof.
  change (C73_trailer []) with [(str "Root", ORef 1 0); (str "XRefStm", OInt 32)]. apply w_dict.
  - repeat (constructor; cbn; try (apply kl_less; cbn; lia)).
  - repeat constructor; cbn; try discriminate; unfold is_byte; lia.
  - cbn. repeat (constructor; cbn; unfold is_byte; try lia).
Qed.
(** The document with object 2 changed meets the hypotheses of the theorem; object 3, which only the hybrid stream lists, is still found. *)
Example C73_case :
  hybrid_layout C73_file (Props.Update.offset_of C73_file) C73_table (C73_trailer []) 4 0 (C73_dict 3 2) (C73_data [] [15]) /\
  read_chain parser_dictionary Props.Update.C36_decode 1 C73_file (Props.Update.offset_of C73_file) = Ok [C73_sec] /\
  (exists h, s_hybrid C73_sec = Some h /\ forall e, In e h -> xnum e = 4 -> exists off u, xdata e = KUsed off u) /\
  f_trailer (h_table (C73_source true false)) = set_size (C73_trailer []) (N.of_nat (List.length C73_table)) /\
  changes_saveable entry_saveable storable [h_table (C73_source true false)] /\ changed_once [h_table (C73_source true false)] /\
  changed_in (h_table (C73_source true false)) 2 /\ ~ changed_in (h_table (C73_source true false)) 4 /\ (forall n, n <> 0 -> agree_on C73_sec n) /\
  write_incremental_hybrid C73_file [C73_source true false] = Ok (C73_update true false) /\
  Props.Update.lookup C73_file 2 = Ok (OInt 5) /\ Props.Update.lookup (C73_update true false) 2 = Ok (OInt 6) /\
  Props.Update.lookup (C73_update true false) 3 = Ok (OInt 7) /\ Props.Update.lookup (C73_update true false) 1 = Ok Props.Update.C36_catalog.
Proof.
  split; [|split; [|split; [|split; [|split; [|split; [|split; [|split; [|split; [|split; [|split; [|split; [|split]]]]]]]]]]]].
  - exists (C73_before []), []. split; [vm_compute; reflexivity|]. split; [reflexivity|]. split; [lia|]. split; [lia|]. split; [exact C73_dict_writable|].
    split; [right; left; reflexivity|]. split; [cbn; repeat constructor; lia|]. split; [|split; [exact C73_trailer_writable|split; [intros v [E|[E|[]]]; discriminate|cbn; lia]]].
    apply Forall_cons; [|apply Forall_cons; [|apply Forall_cons; [|apply Forall_nil]]]; (split; [unfold entry_saveable; cbn [fst xnum xgen xdata Props.Update.C36_free Props.Update.C36_used]; repeat split; lia|]); cbn [fst snd].
    + discriminate.
    + intros _ _. apply st_direct. exact Props.Update.C36_catalog_writable.
    + intros _ _. apply st_direct. apply w_int. lia.
  - vm_compute. reflexivity.
  - eexists. split; [reflexivity|]. intros e [<-|[<-|[]]] E; try discriminate E. eexists. eexists. reflexivity.
  - reflexivity.
  - intros s' x [<-|[]] Hx Hd. destruct Hx as [<-|[<-|[<-|[]]]]; try discriminate Hd. cbn [Props.Update.item f_entry f_object xdata Props.Update.C36_used fst snd].
    split; [repeat split; cbn; lia|]. apply st_direct. apply w_int. lia.
  - intros c1 s1 c2 i1 x1 i2 Ec Ei Hd. destruct c1 as [|? [|? ?]]; inversion Ec; subst. cbn [C73_source h_table f_items] in Ei. split; [|intros ? ? []].
    destruct i1 as [|? [|? [|? ?]]]; inversion Ei; subst; try discriminate Hd; try (intros ? []). destruct l; discriminate.
  - eexists. split; [right; right; left; reflexivity|]. split; reflexivity.
  - intros (x & [<-|[<-|[<-|[]]]] & H1 & H2); discriminate.
  - intros n _ h e1 e2 Eh H1 H2 N1 N2. cbn [C73_sec s_hybrid] in Eh. assert (E : h = [Props.Update.C36_used 3 15; Props.Update.C36_used 4 32]) by congruence. subst h.
    cbn [C73_sec s_entries] in H1. destruct H1 as [<-|[<-|[<-|[]]]], H2 as [<-|[<-|[]]]; cbn in N1, N2; exfalso; congruence.
  - vm_compute. reflexivity.
  - vm_compute. reflexivity.
  - vm_compute. reflexivity.
  - vm_compute. reflexivity.
  - vm_compute. reflexivity.
Qed.

(** Objects 2 and 3 are changed and saved: the change of object 3 is lost without a word. *)
Theorem C73_hidden_change_refuted : exists file file' c, c = [C73_source true true] /\ file = C73_file /\
  write_incremental_hybrid file c = Ok file' /\ In (Props.Update.item true (Props.Update.C36_used 3 15, OInt 8)) (flat_map h_hidden c) /\
  Props.Update.lookup file' 2 = Ok (OInt 6) /\ Props.Update.lookup file' 3 = Ok (OInt 7).
Proof.
  exists C73_file, (C73_update true true), [C73_source true true]. split; [reflexivity|]. split; [reflexivity|]. split; [vm_compute; reflexivity|].
  split; [left; reflexivity|]. split; vm_compute; reflexivity.
Qed.
(** Only object 3 is changed: the change is lost, and every object of the table becomes null. *)
Theorem C73_only_hidden_change_refuted : exists file', write_incremental_hybrid C73_file [C73_source false true] = Ok file' /\
  Props.Update.lookup C73_file 1 = Ok Props.Update.C36_catalog /\ Props.Update.lookup C73_file 2 = Ok (OInt 5) /\
  Props.Update.lookup file' 1 = Ok ONull /\ Props.Update.lookup file' 2 = Ok ONull /\ Props.Update.lookup file' 3 = Ok (OInt 7).
Proof. exists (C73_update false true). repeat split; vm_compute; reflexivity. Qed.

(** An object the table and the hybrid stream list differently: the table's entry counts until the file is updated, then the hybrid
    stream's.  Here object 1 is changed, and object 2 goes from 5 to 4. *)
Definition C73_old : bytes := write_object 2 0 (OInt 4).
Definition C73_text2 : bytes := C73_before C73_old ++ write_object 4 0 (OStream (C73_dict 2 3) (C73_data C73_old [32; 15])).
Definition C73_file2 : bytes := match append_section C73_text2 C73_table (C73_trailer C73_old) with Ok (f, _) => f | _ => [] end.
Definition C73_source2 : hsection :=
  {| h_table := {| f_offset := Props.Update.offset_of C73_file2;
                   f_items := [Props.Update.item false Props.Update.C36_free; Props.Update.item true (Props.Update.C36_used 1 151, Props.Update.C36_catalog);
                               Props.Update.item false (Props.Update.C36_used 2 185, OInt 5)];
                   f_trailer := set_size (C73_trailer C73_old) 3 |};
     h_hidden := [] |}.
Theorem C73_listed_twice_refuted : exists file', write_incremental_hybrid C73_file2 [C73_source2] = Ok file' /\
  ~ changed_in (h_table C73_source2) 2 /\ Props.Update.lookup C73_file2 2 = Ok (OInt 5) /\ Props.Update.lookup file' 2 = Ok (OInt 4).
Proof.
  exists (match write_incremental_hybrid C73_file2 [C73_source2] with Ok f => f | _ => [] end). split; [vm_compute; reflexivity|].
  split; [intros (x & [<-|[<-|[<-|[]]]] & H1 & H2); discriminate|]. split; vm_compute; reflexivity.
Qed.

Print Assumptions C73_hybrid_update_partial.
Print Assumptions C73_hidden_changes_ignored.
Print Assumptions C73_hidden_change_refuted.
Print Assumptions C73_only_hidden_change_refuted.
Print Assumptions C73_listed_twice_refuted.

(** Sections written behind each other, and the incremental save. *)
From Coq Require Import List NArith ZArith Bool Lia String Sorted.
From Verif.Model Require Import Base Char Numbers SMap Object Token Parser Arith Containers Xref StartXref Header FileWrite Chain Merge Update.
From Verif.Spec Require Import Strings Grammar Containers Xref FileWrite Chain Merge Update.
From Verif.Proof Require Import Tac Numbers Strings Token SMap Parser Writer StreamObj Arith Xref StartXref FileWrite Containers Chain Merge.
Import ListNotations.
Local Open Scope N_scope.

Lemma at_exact : forall (a b : bytes), b <> [] -> at_position (a ++ b) (Z.of_nat (List.length a)) = b.
Proof.
  intros a b Hb. unfold at_position. assert (0 < List.length b)%nat by (destruct b; [congruence|cbn; lia]). rewrite app_length.
  replace (Z.of_nat (List.length a) <? 0)%Z with false by lia.
  replace (Z.of_nat (List.length a + List.length b) <=? Z.of_nat (List.length a))%Z with false by lia. cbn [orb]. rewrite Nat2Z.id. apply skipn_exact.
Qed.
Lemma sorted_entry_of : forall sec e, s_kind sec = STable -> xsorted (s_entries sec) -> In e (s_entries sec) -> entry_of sec (xnum e) e.
Proof. intros sec e Hk Hs Hin. apply sec_find_entry. unfold sec_find, xfind. rewrite (sorted_find _ _ Hs Hin). reflexivity. Qed.

Section Append.
Variable decode : list (bytes * obj) -> bytes -> res bytes.
Variable rl : N -> N -> res Z.
Notation saveable_list l := (Forall (fun p => entry_saveable (fst p) /\ (used_in_use (fst p) -> storable (snd p))) l).

Lemma append_read : forall out l trailer out' off,
  StronglySorted N.lt (map (fun p => xnum (fst p)) l) -> saveable_list l -> writable (ODict trailer) ->
  append_section out l trailer = Ok (out', off) -> (Z.of_nat (List.length out') < 2 ^ 63)%Z -> N.of_nat (List.length l) < 2 ^ 63 ->
  (exists p, out' = out ++ p) /\ last_xref_offset out' = Ok off /\ (Z.of_nat (List.length out) <= off)%Z /\
  exists sec, s_trailer sec = set_size trailer (N.of_nat (List.length l)) /\
    forall suffix, (forall c, read_section parser_dictionary decode (out' ++ suffix) c off = Ok (c, sec)) /\
      holds_section parser_dictionary rl (out' ++ suffix) sec l.
Proof.
  intros out l trailer file off Hs Hl Ht Hw Hlen Hcnt. unfold append_section in Hw.
  destruct (recalculate_lengths_ok l Hl) as (l1 & E1 & F1). rewrite E1 in Hw. cbn [rbind] in Hw.
  assert (Hl1 : Forall (fun p => entry_saveable (fst p)) l1).
  { clear - Hl F1. induction F1 as [|a b l l1 (K & _) F IH]; [constructor|]. inversion Hl as [|? ? (A & _) H]; subst. constructor; [rewrite K; auto|auto]. }
  assert (Elen : List.length l1 = List.length l) by (clear - F1; induction F1; cbn; auto).
  assert (Esz : recalculate_size (map fst l1) = N.of_nat (List.length l)) by (unfold recalculate_size; rewrite map_length, Elen; reflexivity).
  rewrite Esz in Hw.
  assert (Ho := fun after => write_objects_ok l1 (N.of_nat (List.length out)) out after eq_refl Hl1).
  destruct (write_objects None (N.of_nat (List.length out)) l1) as [body l2] eqn:E2. cbn [fst snd] in Ho.
  apply rbind_ok in Hw. destruct Hw as (table & Etab & Hw). apply Ok_inj in Hw.
  assert (Efile := f_equal fst Hw). assert (Eoff := f_equal snd Hw). cbn [fst snd] in Efile, Eoff. clear Hw. rewrite Eoff in Efile.
  set (m' := set_size trailer (N.of_nat (List.length l))) in *.
  assert (Hfl : Z.of_nat (List.length file) = (off + Z.of_nat (List.length (table ++ write_xref_offset off)))%Z).
  { rewrite <- Efile. generalize (write_xref_offset off). intros W. rewrite <- Eoff. rewrite !app_length. lia. }
  assert (Hbody : (Z.of_nat (List.length out) + Z.of_nat (List.length body) <= off)%Z) by (rewrite <- Eoff; rewrite !app_length; lia).
  change (2 ^ 63)%Z with 9223372036854775808%Z in Hlen.
  assert (Hnums : map (fun p => xnum (fst p)) l2 = map (fun p => xnum (fst p)) l).
  { rewrite (Forall2_nums _ _ _ (fun a b (H : placed _ _ _ a b) => proj1 H) (Ho [])).
    apply (Forall2_nums kept); [intros a b [K _]; rewrite K; reflexivity|exact F1]. }
  assert (Hs2 : xsorted (map fst l2)) by (apply sorted_nums; rewrite Hnums; exact Hs).
  assert (Hr2 : Forall entry_in_range (map fst l2) /\ Forall not_compressed (map fst l2)).
  { assert (Hx := Ho []). clear - Hx Hl1 Hlen Hfl Hbody. induction Hx as [|a b l1 l2 (P1 & P2 & P3 & P4) F IH]; [split; constructor|].
    inversion Hl1 as [|? ? B H]; subst. destruct (IH H) as [I1 I2]. cbn [map]. destruct a as [[an ag ad] ao], b as [[bn bg bd] bo].
    unfold entry_saveable in B. cbn [fst snd xnum xgen xdata] in *. subst.
    destruct ad as [next|o u|s i]; [| |destruct B as (_ & _ & [])].
    - inversion P4; subst. split; (constructor; [|assumption]); [exact B|exact I].
    - destruct P4 as (pos & -> & Hpos & _). split; (constructor; [|assumption]); [|exact I]. unfold entry_in_range. cbn [xnum xgen xdata].
      destruct B as (B1 & B2 & B3). change (2 ^ 63)%Z with 9223372036854775808%Z. repeat split; auto; try lia. }
  destruct Hr2 as [Hr2 Hc2].
  assert (Hsize : writable (OInt (Z.of_N (N.of_nat (List.length l))))).
  { apply w_int. change (2 ^ 63) with 9223372036854775808 in Hcnt. change (2 ^ 63)%Z with 9223372036854775808%Z. lia. }
  assert (Hwm : writable (ODict m')) by (apply writable_set; [exact Ht|apply str_bytes|exact Hsize|discriminate]).
  assert (Etxt : exists mid, table = str "xref" ++ [10] ++ mid ++ [10]).
  { unfold write_xref_table in Etab. apply rbind_ok in Etab. destruct Etab as (subs & _ & Etab). apply Ok_inj in Etab. rewrite <- Etab.
    exists (subs ++ str "trailer" ++ [10] ++ to_pdf (ODict m')). rewrite <- !app_assoc. reflexivity. }
  destruct Etxt as (mid & Etxt).
  split; [exists (body ++ [10] ++ table ++ write_xref_offset off); symmetry; exact Efile|]. split.
  { rewrite <- Efile. replace (out ++ body ++ [10] ++ table ++ write_xref_offset off) with ((out ++ body ++ [10] ++ table) ++ write_xref_offset off ++ [])
      by (rewrite app_nil_r, <- !app_assoc; reflexivity).
    apply last_offset_found; [|constructor|cbn; lia|change (2 ^ 63)%Z with 9223372036854775808%Z; lia].
    right. exists (out ++ body ++ [10] ++ str "xref" ++ [10] ++ mid), 10. split; [rewrite Etxt, <- !app_assoc; reflexivity|exact white10]. }
  split; [lia|].
  exists {| s_kind := STable; s_entries := map forget (map fst l2); s_hybrid := None; s_trailer := m' |}. split; [reflexivity|].
  intros suffix. split.
  - intros c. unfold read_section.
    assert (Epos : at_position (file ++ suffix) off = table ++ write_xref_offset off ++ suffix).
    { rewrite <- Efile. replace ((out ++ body ++ [10] ++ table ++ write_xref_offset off) ++ suffix) with ((out ++ body ++ [10]) ++ table ++ write_xref_offset off ++ suffix)
        by (rewrite <- !app_assoc; reflexivity). rewrite <- Eoff at 2. apply at_exact. rewrite Etxt. discriminate. }
    rewrite Epos.
    assert (Epk : peek_type_skip parser_dictionary (table ++ write_xref_offset off ++ suffix) = Ok TyXref).
    { rewrite Etxt, <- !app_assoc. unfold peek_type_skip. rewrite tok_keyword by (cbn; tauto || (left; exact white10)). reflexivity. }
    rewrite Epk. cbn [rbind]. change (ttype_eqb TyXref TyXref) with true. cbv iota.
    assert (Hend : object_end (10 :: write_xref_offset off ++ suffix)).
    { change (10 :: write_xref_offset off ++ suffix) with ([10] ++ write_xref_offset off ++ suffix). unfold write_xref_offset. rewrite <- !app_assoc.
      apply (oe_word [10] (str "startxref") ([10] ++ to_string_Z off ++ [10] ++ str "%%EOF" ++ [10] ++ suffix)); [exact gap10|discriminate|cbn; tauto|left; exact white10]. }
    destruct (table_roundtrip opening_length (map fst l2) m' (write_xref_offset off ++ suffix) Hs2 Hr2 Hc2 Hwm Hend) as (table' & Et & Er).
    rewrite Etab in Et. inversion Et; subst table'. rewrite Er. reflexivity.
  - assert (Ho' := Ho ([10] ++ table ++ write_xref_offset off ++ suffix)).
    replace (out ++ body ++ [10] ++ table ++ write_xref_offset off ++ suffix) with (file ++ suffix) in Ho' by (rewrite <- Efile, <- !app_assoc; reflexivity).
    split; [reflexivity|split; [reflexivity|split]].
    + intros n. cbn [s_entries]. assert (Hn : In n (map (fun p => xnum (fst p)) l2) <-> In n (map (fun p => xnum (fst p)) l)) by (rewrite Hnums; tauto).
      rewrite !in_map_iff in Hn. split.
      * intros (x & Hx & En). rewrite map_map in Hx. apply in_map_iff in Hx. destruct Hx as (p & <- & Hp). cbn [forget xnum] in En.
        destruct (proj1 Hn) as (q & Eq & Hq); [exists p; split; [exact En|exact Hp]|]. exists q. split; [exact Hq|exact Eq].
      * intros (q & Hq & Eq). destruct (proj2 Hn) as (p & Ep & Hp); [exists q; split; [exact Eq|exact Hq]|]. exists (forget (fst p)).
        split; [rewrite map_map; apply (in_map (fun p => forget (fst p))), Hp|exact Ep].
    + intros e o Hin. destruct (Forall2_In _ _ _ _ _ _ F1 Hin) as ([e1 o1] & Hin1 & (K1 & K2)). cbn [fst snd] in *. subst e1.
      destruct (Forall2_In _ _ _ _ _ _ Ho' Hin1) as ([e2 o2] & Hin2 & (P1 & P2 & P3 & P4)). cbn [fst snd] in *. subst o2.
      set (sec := {| s_kind := STable; s_entries := map forget (map fst l2); s_hybrid := None; s_trailer := m' |}).
      assert (Hf : entry_of sec (xnum e) (forget e2)).
      { rewrite <- P1. change (xnum e2) with (xnum (forget e2)). apply sorted_entry_of; [reflexivity|apply forget_sorted; exact Hs2|].
        cbn [s_entries sec]. apply in_map. apply (in_map fst) in Hin2. exact Hin2. }
      rewrite Forall_forall in Hl. destruct (Hl _ Hin) as (B & C). cbn [fst snd] in *. destruct e as [num gen data], e2 as [num2 gen2 data2].
      unfold entry_saveable, used_in_use in *. cbn [xnum xgen xdata] in *. subst num2 gen2. destruct B as (B1 & B2 & B3).
      destruct data as [next|offset u|sn si]; [| |destruct B3].
      * inversion P4; subst. exact Hf.
      * rewrite B3 in *. destruct P4 as (pos & -> & Hpos & Hst). destruct (K2 I) as (Hso & Hsd).
        exists (Z.of_N pos), o1. split; [exact Hf|]. destruct Hst as (_ & before & after & Ef & Eb). split; [|split; [|exact Hso]].
        -- split; [lia|]. unfold write_object in Ef. exists before, (to_pdf o1 ++ [10] ++ str "endobj" ++ [10] ++ after). split; [|exact Eb].
           rewrite Ef. unfold object_heading. rewrite <- !app_assoc. reflexivity.
        -- unfold load_entry. cbn [xdata]. replace (Z.to_nat (Z.of_N pos)) with (List.length before) by lia. rewrite Ef, skipn_exact.
           rewrite read_written_object by assumption. reflexivity.
Qed.
End Append.

Lemma in_find : forall (m : list (bytes * obj)) k v, writable (ODict m) -> all_bytes k -> (In (k, v) m <-> sm_find k m = Some v).
Proof. intros m k v H Hk. destruct (writable_parts m H) as (S1 & K1 & _). symmetry. apply sm_find_in; assumption. Qed.
Lemma not_in_find : forall (m : list (bytes * obj)) k, writable (ODict m) -> all_bytes k -> ((forall v, ~ In (k, v) m) <-> sm_find k m = None).
Proof.
  intros m k H Hk. split.
  - intros Hn. destruct (sm_find k m) as [v|] eqn:E; [|reflexivity]. exfalso. apply (Hn v). apply in_find; assumption.
  - intros E v Hin. apply in_find in Hin; try assumption. congruence.
Qed.
Lemma key_bytes : forall (m : list (bytes * obj)) k v, writable (ODict m) -> In (k, v) m -> all_bytes k.
Proof. intros m k v H Hin. destruct (writable_parts m H) as (_ & K1 & _). unfold sm_keys_ok in K1. rewrite Forall_forall in K1. exact (K1 _ Hin). Qed.
Lemma same_trailer_set : forall m k v, writable (ODict m) -> all_bytes k -> writable v -> v <> ONull -> k = str "Size" \/ k = str "Prev" ->
  same_trailer m (sm_insert k v (sm_remove k m)).
Proof.
  intros m k v Hm Hk Hv Hn Hor k2 v2 N1 N2. assert (W := writable_set m k v Hm Hk Hv Hn).
  assert (Hne : k2 <> k) by (destruct Hor; congruence). split; intros Hin.
  - assert (Hb := key_bytes _ _ _ Hm Hin). apply in_find; [exact W|exact Hb|]. rewrite find_set by assumption.
    destruct (list_eq_dec N.eq_dec k2 k); [contradiction|]. apply in_find; assumption.
  - assert (Hb := key_bytes _ _ _ W Hin). apply in_find in Hin; [|exact W|exact Hb]. rewrite find_set in Hin by assumption.
    destruct (list_eq_dec N.eq_dec k2 k); [contradiction|]. apply in_find; assumption.
Qed.
Lemma same_trailer_trans : forall a b c, same_trailer a b -> same_trailer b c -> same_trailer a c.
Proof. intros a b c H1 H2 k v N1 N2. rewrite (H1 k v N1 N2). apply H2; assumption. Qed.
Lemma writable_nat : forall z, (0 <= z < 2 ^ 63)%Z -> writable (OInt z).
Proof. intros z H. apply w_int. change (2 ^ 63)%Z with 9223372036854775808%Z in *. lia. Qed.
Lemma size_written : forall m n, writable (ODict m) -> N.of_nat n < 2 ^ 63 -> writable (ODict (set_size m (N.of_nat n))) /\
  same_trailer m (set_size m (N.of_nat n)) /\ sm_find (str "Size") (set_size m (N.of_nat n)) = Some (OInt (Z.of_nat n)) /\
  forall k, all_bytes k -> k <> str "Size" -> sm_find k (set_size m (N.of_nat n)) = sm_find k m.
Proof.
  intros m n Hm Hn. assert (Hv : writable (OInt (Z.of_N (N.of_nat n)))).
  { apply writable_nat. change (2 ^ 63) with 9223372036854775808 in Hn. change (2 ^ 63)%Z with 9223372036854775808%Z. lia. }
  unfold set_size. split; [apply writable_set; [exact Hm|apply str_bytes|exact Hv|discriminate]|]. split.
  - apply same_trailer_set; [exact Hm|apply str_bytes|exact Hv|discriminate|left; reflexivity].
  - split.
    + rewrite find_set by (exact Hm || apply str_bytes). destruct (list_eq_dec N.eq_dec (str "Size") (str "Size")); [|congruence]. do 2 f_equal. lia.
    + intros k Hk Hne. rewrite find_set by (assumption || apply str_bytes). destruct (list_eq_dec N.eq_dec k (str "Size")); [contradiction|reflexivity].
Qed.
Lemma prev_written : forall m p m', writable (ODict m) -> (0 <= p < 2 ^ 63)%Z -> set_prev m p = Ok m' -> writable (ODict m') /\
  same_trailer m m' /\ sm_find (str "Prev") m' = Some (OInt p) /\ forall k, all_bytes k -> k <> str "Prev" -> sm_find k m' = sm_find k m.
Proof.
  intros m p m' Hm Hp H. assert (E : m' = sm_insert (str "Prev") (OInt p) (sm_remove (str "Prev") m)).
  { unfold set_prev in H. destruct (sm_find (str "Prev") m) as [[]|]; apply Ok_inj in H || discriminate; symmetry; exact H. }
  subst m'. assert (Hv := writable_nat p Hp). split; [apply writable_set; [exact Hm|apply str_bytes|exact Hv|discriminate]|]. split.
  - apply same_trailer_set; [exact Hm|apply str_bytes|exact Hv|discriminate|right; reflexivity].
  - split.
    + rewrite find_set by (exact Hm || apply str_bytes). destruct (list_eq_dec N.eq_dec (str "Prev") (str "Prev")); [reflexivity|congruence].
    + intros k Hk Hne. rewrite find_set by (assumption || apply str_bytes). destruct (list_eq_dec N.eq_dec k (str "Prev")); [contradiction|reflexivity].
Qed.

Section Chains.
Variable decode : list (bytes * obj) -> bytes -> res bytes.
Variable rl : N -> N -> res Z.
Notation read_sections := (read_sections parser_dictionary decode).
Notation holds := (holds_section parser_dictionary rl).

Lemma saveable_used : forall l, Forall (fun x : xentry * obj => entry_saveable (fst x) /\ (forall off, xdata (fst x) = KUsed off true -> storable (snd x))) l ->
  Forall (fun p => entry_saveable (fst p) /\ (used_in_use (fst p) -> storable (snd p))) l.
Proof.
  intros l H. rewrite Forall_forall in *. intros p Hp. destruct (H p Hp) as [H1 H2]. split; [exact H1|]. unfold used_in_use.
  destruct (xdata (fst p)) as [|off []|] eqn:E; try tauto. intros _. exact (H2 off eq_refl).
Qed.
Definition fits (file : bytes) : Prop := (Z.of_nat (List.length file) < 2 ^ 63)%Z.
Definition stored_as (file : bytes) (s : section) (p : list (xentry * obj) * list (bytes * obj)) : Prop :=
  holds file s (fst p) /\ same_trailer (snd p) (s_trailer s) /\ sm_find (str "XRefStm") (s_trailer s) = None /\
  sm_find (str "Size") (s_trailer s) = Some (OInt (Z.of_nat (List.length (fst p)))).

Lemma append_sections_grow : forall c out prev file, append_sections out prev c = Ok file -> exists p, file = out ++ p.
Proof.
  induction c as [|[l m] c IH]; intros out prev file H; cbn [append_sections] in H; [inversion H; exists []; rewrite app_nil_r; reflexivity|].
  apply rbind_ok in H. destruct H as (m' & _ & H). apply rbind_ok in H. destruct H as ([out' offset] & Ha & H).
  destruct (IH _ _ _ H) as (p & ->). unfold append_section in Ha. apply rbind_ok in Ha. destruct Ha as (l1 & _ & Ha).
  destruct (write_objects None _ l1) as [body l2]. apply rbind_ok in Ha. destruct Ha as (table & _ & Ha). apply Ok_inj in Ha.
  assert (Eo := f_equal fst Ha). cbn [fst] in Eo. rewrite <- Eo. eexists. rewrite <- app_assoc. reflexivity.
Qed.

Lemma append_sections_read : forall c out prevoff file, Forall section_saveable c -> (0 <= prevoff < 2 ^ 63)%Z ->
  append_sections out (Some prevoff) c = Ok file -> fits file ->
  exists secs off, (c = [] -> off = prevoff) /\ (c <> [] -> last_xref_offset file = Ok off) /\
    forall suffix, Forall2 (stored_as (file ++ suffix)) secs c /\
      forall f acc, read_sections (List.length c + f) (file ++ suffix) acc off = read_sections f (file ++ suffix) (acc ++ rev secs) prevoff.
Proof.
  induction c as [|[l m] c IH]; intros out prevoff file Hc Hp H Hfit; cbn [append_sections] in H.
  - inversion H; subst. exists [], prevoff. split; [reflexivity|]. split; [congruence|]. intros suffix. split; [constructor|]. intros f acc. rewrite app_nil_r. reflexivity.
  - inversion Hc as [|? ? (Q1 & Q2 & Q3 & Q4 & Q5) Hc']; subst. cbn [fst snd] in *.
    apply rbind_ok in H. destruct H as (m' & Em & H). apply rbind_ok in H. destruct H as ([out' offset] & Ha & H).
    destruct (prev_written _ _ _ Q3 Hp Em) as (W1 & W2 & W3 & W4).
    destruct (append_sections_grow _ _ _ _ H) as (p & Ep).
    assert (Hfit' : (Z.of_nat (List.length out') < 2 ^ 63)%Z) by (unfold fits in Hfit; rewrite Ep, app_length in Hfit; lia).
    destruct (append_read decode rl out l m' out' offset Q1 (saveable_used _ Q2) W1 Ha Hfit' Q5) as ((q & Eq) & L1 & L2 & sec & L3 & L4).
    assert (Hoff : (0 <= offset < 2 ^ 63)%Z).
    { split; [lia|]. unfold append_section in Ha. apply rbind_ok in Ha. destruct Ha as (l1 & _ & Ha). destruct (write_objects None _ l1) as [body l2].
      apply rbind_ok in Ha. destruct Ha as (table & _ & Ha). apply Ok_inj in Ha. assert (Eo := f_equal fst Ha). assert (Ef := f_equal snd Ha). cbn [fst snd] in Eo, Ef.
      rewrite <- Eo in Hfit'. rewrite !app_length in Hfit'. rewrite <- Ef. rewrite !app_length. clear - Hfit'. lia. }
    destruct (IH out' offset file Hc' Hoff H Hfit) as (secs & off & I1 & I2 & I3).
    destruct (size_written m' (List.length l) W1 Q5) as (Z1 & Z2 & Z3 & Z4).
    exists (sec :: secs), off. split; [discriminate|]. split.
    { intros _. destruct c as [|x c]; [|apply I2; discriminate]. cbn [append_sections] in H. apply Ok_inj in H. rewrite (I1 eq_refl), <- H. exact L1. }
    intros suffix. destruct (I3 suffix) as [J1 J2]. destruct (L4 (p ++ suffix)) as [K1 K2]. rewrite app_assoc, <- Ep in K1, K2. split.
    + constructor; [|exact J1]. split; [exact K2|]. cbn [fst snd]. rewrite L3. split; [apply (same_trailer_trans _ m'); assumption|]. split; [|exact Z3].
      rewrite Z4, W4 by (apply str_bytes || discriminate). apply not_in_find; [exact Q3|apply str_bytes|exact Q4].
    + intros f acc. cbn [List.length]. replace (S (List.length c) + f)%nat with (List.length c + S f)%nat by lia. rewrite J2. cbn [Chain.read_sections].
      rewrite K1. cbn [rbind]. rewrite L3. unfold sm_contains, find_int. rewrite Z4 by (apply str_bytes || discriminate). rewrite W3. cbn [int_value rbind rev].
      rewrite <- app_assoc. reflexivity.
Qed.

Lemma hybrids_none : forall file rest done, (forall s, In s rest -> sm_find (str "XRefStm") (s_trailer s) = None) ->
  read_hybrids parser_dictionary decode file done rest = Ok (done ++ rest).
Proof.
  intros file. induction rest as [|s rest IH]; intros done H; cbn [read_hybrids]; [rewrite app_nil_r; reflexivity|].
  assert (E : sm_contains (str "XRefStm") (s_trailer s) = false) by (unfold sm_contains; rewrite (H s (or_introl eq_refl)); reflexivity). rewrite E.
  rewrite IH by (intros x Hx; apply H; right; exact Hx). rewrite <- app_assoc. destruct (s_kind s); reflexivity.
Qed.
Lemma chain_finished : forall fuel file off secs, secs <> [] -> Chain.read_sections parser_dictionary decode fuel file [] off = Ok secs ->
  (forall s, In s secs -> s_kind s = STable /\ sm_find (str "XRefStm") (s_trailer s) = None) ->
  read_chain parser_dictionary decode fuel file off = Ok secs.
Proof.
  intros fuel file off secs Hne H Hs. unfold read_chain. rewrite H. cbn [rbind]. rewrite hybrids_none by (intros s Hin; apply Hs; exact Hin). cbn [app rbind].
  destruct secs as [|s secs]; [congruence|]. cbn [move_virtual]. rewrite (proj1 (Hs s (or_introl eq_refl))). reflexivity.
Qed.

Lemma first_section_read : forall out l m file off, section_saveable (l, m) -> (forall v, ~ In (str "Prev", v) m) ->
  append_section out l m = Ok (file, off) -> fits file ->
  (0 <= off < 2 ^ 63)%Z /\ last_xref_offset file = Ok off /\ exists sec, s_trailer sec = set_size m (N.of_nat (List.length l)) /\ forall suffix, stored_as (file ++ suffix) sec (l, m) /\
    (forall c, read_section parser_dictionary decode (file ++ suffix) c off = Ok (c, sec)) /\
    forall f acc, read_sections (S f) (file ++ suffix) acc off = Ok (acc ++ [sec]).
Proof.
  intros out l m file off (Q1 & Q2 & Q3 & Q4 & Q5) Hp Ha Hfit. cbn [fst snd] in *.
  destruct (append_read decode rl out l m file off Q1 (saveable_used _ Q2) Q3 Ha Hfit Q5) as ((q & Eq) & L1 & L2 & sec & L3 & L4).
  destruct (size_written m (List.length l) Q3 Q5) as (Z1 & Z2 & Z3 & Z4). split; [split; [lia|]|].
  { unfold fits in Hfit. unfold append_section in Ha. apply rbind_ok in Ha. destruct Ha as (l1 & _ & Ha). destruct (write_objects None _ l1) as [body l2].
    apply rbind_ok in Ha. destruct Ha as (table & _ & Ha). apply Ok_inj in Ha. assert (Eo := f_equal fst Ha). assert (Ef := f_equal snd Ha). cbn [fst snd] in Eo, Ef.
    rewrite <- Eo in Hfit. rewrite !app_length in Hfit. rewrite <- Ef. rewrite !app_length. clear - Hfit. lia. }
  split; [exact L1|]. exists sec. split; [exact L3|]. intros suffix. destruct (L4 suffix) as [K1 K2]. split; [|split; [exact K1|]].
  - split; [exact K2|]. cbn [fst snd]. rewrite L3. split; [exact Z2|]. split; [|exact Z3]. rewrite Z4 by (apply str_bytes || discriminate).
    apply not_in_find; [exact Q3|apply str_bytes|exact Q4].
  - intros f acc. cbn [Chain.read_sections]. rewrite K1. cbn [rbind]. rewrite L3. unfold sm_contains. rewrite Z4 by (apply str_bytes || discriminate).
    rewrite (proj1 (not_in_find m (str "Prev") Q3 (str_bytes _)) Hp). reflexivity.
Qed.

Lemma tables_read : forall v l m c file, section_saveable (l, m) -> (forall x, ~ In (str "Prev", x) m) -> Forall section_saveable c ->
  write_tables v ((l, m) :: c) = Ok file -> fits file ->
  exists secs off, last_xref_offset file = Ok off /\ Forall2 (stored_as file) secs ((l, m) :: c) /\
    forall f, read_chain parser_dictionary decode (List.length secs + f) file off = Ok (rev secs).
Proof.
  intros v l m c file H1 Hp Hc Hw Hfit. unfold write_tables in Hw. cbn [append_sections rbind] in Hw. apply rbind_ok in Hw. destruct Hw as ([out off0] & Ha & Hw).
  destruct (append_sections_grow _ _ _ _ Hw) as (p & Ep).
  assert (Hfit' : fits out) by (unfold fits in *; rewrite Ep, app_length in Hfit; lia).
  destruct (first_section_read _ _ _ _ _ H1 Hp Ha Hfit') as (Hoff & L1 & sec & L3 & L4).
  destruct (append_sections_read c out off0 file Hc Hoff Hw Hfit) as (secs & off & I1 & I2 & I3).
  destruct (I3 []) as [J1 J2]. rewrite app_nil_r in J1, J2. destruct (L4 p) as (K1 & _ & K2). rewrite <- Ep in K1, K2.
  assert (F : Forall2 (stored_as file) (sec :: secs) ((l, m) :: c)) by (constructor; assumption).
  assert (Elen : List.length secs = List.length c) by (clear - J1; induction J1; cbn; auto).
  exists (sec :: secs), off. split; [|split; [exact F|]].
  - destruct c as [|x c]; [|apply I2; discriminate]. cbn [append_sections] in Hw. apply Ok_inj in Hw. rewrite (I1 eq_refl), <- Hw. exact L1.
  - intros f. apply chain_finished.
    + cbn [rev]. intros E. apply app_eq_nil in E. destruct E; discriminate.
    + cbn [List.length]. replace (S (List.length secs) + f)%nat with (List.length c + S f)%nat by lia. rewrite J2, K2. reflexivity.
    + intros s Hs. apply in_rev in Hs. clear - F Hs. induction F as [|a b la lb (P1 & _ & P3 & _) F IH]; [destruct Hs|].
      destruct Hs as [<-|Hs]; [split; [apply P1|exact P3]|apply IH; exact Hs].
Qed.
End Chains.

(** ** the table of changes *)
Definition change (x : fentry) : list (xentry * obj) :=
  if f_dirty x then
    match xdata (f_entry x) with
    | KUsed _ false => []
    | KFree _ => [({| xnum := xnum (f_entry x); xgen := xgen (f_entry x); xdata := KFree 0 |}, f_object x)]
    | _ => [(f_entry x, f_object x)]
    end
  else [].
Definition changes (c : list fsection) : list (xentry * obj) := flat_map (fun s => flat_map change (f_items s)) c.
Definition add_all (l t : list (xentry * obj)) : list (xentry * obj) := fold_left (fun t p => padd p t) l t.
Definition some_dirty (l : list fentry) : bool := existsb f_dirty l.
Lemma collect_items_spec : forall l t any t' any', collect_items l t any = Ok (t', any') -> t' = add_all (flat_map change l) t /\ any' = any || some_dirty l.
Proof.
  induction l as [|x l IH]; intros t any t' any' H; cbn [collect_items] in H.
  - inversion H; subst. rewrite orb_false_r. split; reflexivity.
  - cbn [flat_map some_dirty existsb]. unfold change at 1. destruct (f_dirty x); [|cbn [orb app]; apply IH; exact H].
    rewrite orb_true_l, orb_true_r. unfold add_changed in H. destruct (xdata (f_entry x)) as [next|off []|s i] eqn:E; cbn [fst xdata] in H; try rewrite E in H; cbn [rbind] in H; try discriminate;
      destruct (IH _ _ _ _ H) as [-> ->]; split; try reflexivity; unfold add_all; try rewrite fold_left_app; reflexivity.
Qed.
Lemma changes_spec : forall c t any t' any', Update.collect c t any = Ok (t', any') -> t' = add_all (changes c) t /\ any' = any || existsb (fun s => some_dirty (f_items s)) c.
Proof.
  induction c as [|s c IH]; intros t any t' any' H; cbn [Update.collect] in H.
  - inversion H; subst. rewrite orb_false_r. split; reflexivity.
  - apply rbind_ok in H. destruct H as ([t1 any1] & H1 & H). apply collect_items_spec in H1. destruct H1 as [-> ->]. apply IH in H. destruct H as [-> ->].
    unfold changes, add_all. cbn [flat_map existsb]. rewrite fold_left_app, orb_assoc. split; reflexivity.
Qed.
Definition pnums (t : list (xentry * obj)) : list N := map (fun p => xnum (fst p)) t.
Lemma padd_in : forall (p x : xentry * obj) t, In x (padd p t) -> x = p \/ In x t.
Proof.
  intros p x. induction t as [|y t IH]; cbn [padd]; [intros [<-|[]]; auto|].
  destruct (xnum (fst p) <? xnum (fst y)); [intros [<-|H]; auto|]. destruct (xnum (fst p) =? xnum (fst y)); [intros [<-|H]; [auto|right; right; exact H]|].
  intros [<-|H]; [right; left; reflexivity|]. destruct (IH H); [auto|right; right; assumption].
Qed.
Lemma padd_has : forall (p : xentry * obj) t, In p (padd p t).
Proof.
  intros p. induction t as [|y t IH]; cbn [padd]; [left; reflexivity|]. destruct (xnum (fst p) <? xnum (fst y)); [left; reflexivity|].
  destruct (xnum (fst p) =? xnum (fst y)); [left; reflexivity|right; exact IH].
Qed.
Lemma padd_keeps : forall (p x : xentry * obj) t, In x t -> xnum (fst x) <> xnum (fst p) -> In x (padd p t).
Proof.
  intros p x. induction t as [|y t IH]; intros H Hne; [destruct H|]. cbn [padd]. destruct (xnum (fst p) <? xnum (fst y)); [right; exact H|].
  destruct (xnum (fst p) =? xnum (fst y)) eqn:E; destruct H as [<-|H]; try (right; exact H); try (left; reflexivity).
  - exfalso. apply Hne. lia.
  - right. apply IH; assumption.
Qed.
Lemma padd_sorted : forall (p : xentry * obj) t, StronglySorted N.lt (pnums t) -> StronglySorted N.lt (pnums (padd p t)).
Proof.
  intros p. unfold pnums. induction t as [|y t IH]; intros H; cbn [padd map]; [repeat constructor|]. cbn [map] in H. inversion H as [|? ? H1 H2]; subst.
  destruct (xnum (fst p) <? xnum (fst y)) eqn:E1.
  - cbn [map]. constructor; [exact H|]. constructor; [lia|]. rewrite Forall_forall in *. intros n Hn. specialize (H2 n Hn). lia.
  - destruct (xnum (fst p) =? xnum (fst y)) eqn:E2; cbn [map].
    + constructor; [exact H1|]. rewrite Forall_forall in *. intros n Hn. specialize (H2 n Hn). lia.
    + constructor; [apply IH; exact H1|]. rewrite Forall_forall in *. intros n Hn. apply in_map_iff in Hn. destruct Hn as (x & <- & Hx).
      apply padd_in in Hx. destruct Hx as [->|Hx]; [lia|]. apply H2. apply (in_map (fun p => xnum (fst p))). exact Hx.
Qed.
Lemma padd_length : forall (p : xentry * obj) t, (List.length (padd p t) <= S (List.length t))%nat.
Proof.
  intros p. induction t as [|y t IH]; cbn [padd List.length]; [lia|]. destruct (xnum (fst p) <? xnum (fst y)); [cbn; lia|].
  destruct (xnum (fst p) =? xnum (fst y)); cbn; lia.
Qed.
Lemma add_all_in : forall l t x, In x (add_all l t) -> In x l \/ In x t.
Proof.
  unfold add_all. induction l as [|p l IH]; intros t x H; cbn [fold_left] in H; [auto|]. apply IH in H. destruct H as [H|H]; [left; right; exact H|].
  apply padd_in in H. destruct H as [->|H]; [left; left; reflexivity|right; exact H].
Qed.
Lemma add_all_sorted : forall l t, StronglySorted N.lt (pnums t) -> StronglySorted N.lt (pnums (add_all l t)).
Proof. unfold add_all. induction l as [|p l IH]; intros t H; cbn [fold_left]; [exact H|]. apply IH. apply padd_sorted. exact H. Qed.
Lemma add_all_length : forall l t, (List.length (add_all l t) <= List.length l + List.length t)%nat.
Proof. unfold add_all. induction l as [|p l IH]; intros t; cbn [fold_left List.length]; [lia|]. specialize (IH (padd p t)). assert (H := padd_length p t). lia. Qed.
Lemma add_all_keeps : forall l t x, In x t -> (forall p, In p l -> xnum (fst p) <> xnum (fst x)) -> In x (add_all l t).
Proof.
  unfold add_all. induction l as [|p l IH]; intros t x Hx Hn; cbn [fold_left]; [exact Hx|]. apply IH; [|intros q Hq; apply Hn; right; exact Hq].
  apply padd_keeps; [exact Hx|]. apply not_eq_sym. apply Hn. left. reflexivity.
Qed.
Lemma add_all_has : forall l1 p l2 t, (forall q, In q l2 -> xnum (fst q) <> xnum (fst p)) -> In p (add_all (l1 ++ p :: l2) t).
Proof.
  intros l1 p l2 t H. unfold add_all. rewrite fold_left_app. cbn [fold_left]. apply (add_all_keeps l2); [apply padd_has|exact H].
Qed.
Lemma add_all_covers : forall l p t, In p l -> exists q, In q (add_all l t) /\ xnum (fst q) = xnum (fst p).
Proof.
  intros l p t Hin.
  assert (G : forall l t n, (exists q, In q t /\ xnum (fst q) = n) -> exists q, In q (add_all l t) /\ xnum (fst q) = n).
  { clear. unfold add_all. induction l as [|p l IH]; intros t n Hq; cbn [fold_left]; [exact Hq|]. apply IH. destruct Hq as (q & Hq & En).
    destruct (N.eq_dec (xnum (fst p)) n) as [E|E]; [exists p; split; [apply padd_has|exact E]|]. exists q. split; [apply padd_keeps; [exact Hq|congruence]|exact En]. }
  apply in_split in Hin. destruct Hin as (a & b & ->). unfold add_all. rewrite fold_left_app. cbn [fold_left]. apply G. exists p. split; [apply padd_has|reflexivity].
Qed.
Lemma change_num : forall x p, In p (change x) -> f_dirty x = true /\ xnum (fst p) = xnum (f_entry x) /\ xgen (fst p) = xgen (f_entry x).
Proof.
  intros x p H. unfold change in H. destruct (f_dirty x); [|destruct H]. split; [reflexivity|].
  destruct (xdata (f_entry x)) as [next|off []|s i]; try destruct H as [<-|[]]; try (destruct H; fail); split; reflexivity.
Qed.
Lemma changed_listed : forall c e o, changed_once c -> changed_live c e o -> In (e, o) (add_all (changes c) [list_head]).
Proof.
  intros c e o Hone (s & off & Hs & Hd & Hx). apply in_split in Hs. destruct Hs as (c1 & c2 & Ec). apply in_split in Hx. destruct Hx as (i1 & i2 & Ei).
  destruct (Hone c1 s c2 i1 _ i2 Ec Ei eq_refl) as [H1 H2]. cbn [f_entry] in H1, H2.
  assert (Ech : changes c = (changes c1 ++ flat_map change i1) ++ (e, o) :: flat_map change i2 ++ changes c2).
  { unfold changes. rewrite Ec, flat_map_app. cbn [flat_map]. rewrite Ei, flat_map_app. cbn [flat_map]. unfold change at 3. cbn [f_dirty f_entry f_object].
    rewrite Hd. cbn [app]. rewrite <- !app_assoc. cbn [app]. reflexivity. }
  rewrite Ech. apply add_all_has. intros q Hq. cbn [fst]. apply in_app_or in Hq. destruct Hq as [Hq|Hq].
  - apply in_flat_map in Hq. destruct Hq as (x2 & Hx2 & Hq). destruct (change_num _ _ Hq) as (D & -> & _). exact (H1 x2 Hx2 D).
  - unfold changes in Hq. apply in_flat_map in Hq. destruct Hq as (s2 & Hs2 & Hq). apply in_flat_map in Hq. destruct Hq as (x2 & Hx2 & Hq).
    destruct (change_num _ _ Hq) as (D & -> & _). exact (H2 s2 x2 Hs2 Hx2 D).
Qed.
Lemma changes_ok : forall c, changes_saveable entry_saveable storable c ->
  Forall (fun x => entry_saveable (fst x) /\ (forall off, xdata (fst x) = KUsed off true -> storable (snd x))) (add_all (changes c) [list_head]).
Proof.
  intros c H. rewrite Forall_forall. intros p Hp. apply add_all_in in Hp. destruct Hp as [Hp|[<-|[]]].
  - unfold changes in Hp. apply in_flat_map in Hp. destruct Hp as (s & Hs & Hp). apply in_flat_map in Hp. destruct Hp as (x & Hx & Hp).
    destruct (change_num _ _ Hp) as (D & _ & _). specialize (H s x Hs Hx D). unfold change in Hp. rewrite D in Hp.
    destruct (xdata (f_entry x)) as [next|off []|sn i] eqn:E; try (destruct Hp as [<-|[]]); try (destruct Hp; fail); cbn [fst snd xdata].
    + destruct H as (A & B & C). split; [split; [exact A|split; [exact B|cbn; lia]]|discriminate].
    + destruct H as (A & B). split; [exact A|]. intros _ _. exact B.
    + destruct H.
  - cbn [fst snd list_head xdata]. split; [|discriminate]. unfold entry_saveable. cbn [fst xnum xgen xdata]. repeat split; cbn; lia.
Qed.
Lemma collect_compressed : forall c s x t any, In s c -> In x (f_items s) -> f_dirty x = true ->
  (exists a b, xdata (f_entry x) = KComp a b) -> Update.collect c t any = Throw EGeneral.
Proof.
  assert (Gi : forall l t any r, collect_items l t any = r -> (exists p, r = Ok p) \/ r = Throw EGeneral).
  { induction l as [|x l IH]; intros t any r <-; cbn [collect_items]; [left; eexists; reflexivity|]. destruct (f_dirty x); [|eapply IH; reflexivity].
    unfold add_changed. destruct (xdata (f_entry x)) as [|? []|] eqn:E; cbn [fst xdata]; try rewrite E; cbn [rbind]; try (eapply IH; reflexivity). right; reflexivity. }
  assert (Gt : forall l t any x, In x l -> f_dirty x = true -> (exists a b, xdata (f_entry x) = KComp a b) -> collect_items l t any = Throw EGeneral).
  { induction l as [|y l IH]; intros t any x Hin Hd Hx; [destruct Hin|]. cbn [collect_items]. destruct Hin as [->|Hin].
    - rewrite Hd. destruct Hx as (a & b & E). rewrite E. unfold add_changed. cbn [fst]. rewrite E. reflexivity.
    - destruct (f_dirty y); [|apply (IH _ _ x); assumption]. unfold add_changed.
      destruct (xdata (f_entry y)) as [|? []|] eqn:E; cbn [fst xdata]; try rewrite E; cbn [rbind]; try (apply (IH _ _ x); assumption). reflexivity. }
  induction c as [|s0 c IH]; intros s x t any Hs Hx Hd Hk; [destruct Hs|]. cbn [Update.collect]. destruct Hs as [->|Hs].
  - rewrite (Gt _ _ _ x Hx Hd Hk). reflexivity.
  - destruct (Gi (f_items s0) t any _ eq_refl) as [[[t1 a1] E]|E]; rewrite E; cbn [rbind]; [|reflexivity]. apply (IH s x); assumption.
Qed.

(** ** the trailer of the update *)
Lemma clone_writable : forall s, writable (ODict (s_trailer s)) -> N.of_nat (List.length (s_entries s)) < 2 ^ 63 -> writable (ODict (clone_trailer s)).
Proof.
  intros s Ht Hn. unfold clone_trailer.
  assert (Hv : writable (OInt (Z.of_nat (List.length (s_entries s))))).
  { apply writable_nat. change (2 ^ 63) with 9223372036854775808 in Hn. change (2 ^ 63)%Z with 9223372036854775808%Z. lia. }
  assert (H0 : writable (ODict [(str "Size", OInt (Z.of_nat (List.length (s_entries s))))])).
  { apply (writable_insert [] (str "Size") _); [apply w_dict; constructor|apply str_bytes|exact Hv|discriminate]. }
  revert H0. generalize [(str "Size", OInt (Z.of_nat (List.length (s_entries s))))].
  assert (Hk : Forall all_bytes trailer_keys) by (unfold trailer_keys; repeat constructor; apply str_bytes).
  induction Hk as [|k ks Hk _ IH]; intros m Hm; cbn [fold_left]; [exact Hm|]. apply IH. unfold copy_key.
  destruct (sm_find k (s_trailer s)) as [v|] eqn:E; [|exact Hm]. apply in_find in E; [|exact Ht|exact Hk].
  destruct (writable_parts _ Ht) as (_ & _ & F). rewrite Forall_forall in F. destruct (F _ E) as [F1 F2]. apply writable_insert; assumption.
Qed.
Lemma clone_find : forall s k, In k trailer_keys -> k <> str "Size" -> sm_find k (clone_trailer s) = sm_find k (s_trailer s).
Proof.
  intros s k Hk Hne. destruct (clone_trailer_agrees s) as (_ & _ & H).
  assert (Hb : all_bytes k). { assert (Ha : Forall all_bytes trailer_keys) by (unfold trailer_keys; repeat constructor; apply str_bytes). rewrite Forall_forall in Ha. exact (Ha k Hk). }
  rewrite (H k Hb). destruct (list_eq_dec N.eq_dec k (str "Size")); [contradiction|]. destruct (in_dec (list_eq_dec N.eq_dec) k trailer_keys); [reflexivity|contradiction].
Qed.

Section Incremental.
Variable decode : list (bytes * obj) -> bytes -> res bytes.
Variable rl : N -> N -> res Z.

Lemma incremental_read_any : forall file s r file', changes_saveable entry_saveable storable (s :: r) ->
  writable (ODict (f_trailer s)) -> (0 <= f_offset s < 2 ^ 63)%Z ->
  N.of_nat (List.length (flat_map f_items (s :: r))) + 1 < 2 ^ 63 ->
  write_incremental file (s :: r) = Ok file' -> fits file' ->
  exists off sec, (exists more, file' = file ++ [10] ++ more) /\ last_xref_offset file' = Ok off /\
    (forall c, read_section parser_dictionary decode file' c off = Ok (c, sec)) /\
    holds_section parser_dictionary rl file' sec (add_all (changes (s :: r)) [list_head]) /\
    sm_find (str "XRefStm") (s_trailer sec) = sm_find (str "XRefStm") (f_trailer s) /\
    (forall k, In k [str "Root"; str "Info"; str "ID"; str "Encrypt"] -> sm_find k (s_trailer sec) = sm_find k (f_trailer s)) /\
    sm_find (str "Prev") (s_trailer sec) =
      match sm_find (str "Prev") (f_trailer s) with
      | Some v => Some v
      | None => if existsb (fun s => some_dirty (f_items s)) (s :: r) then Some (OInt (f_offset s)) else None
      end.
Proof.
  intros file s r file' Hsv Ht Hoff Hn Hw Hfit. unfold write_incremental in Hw. apply rbind_ok in Hw. destruct Hw as ([t m] & Hc & Hw).
  apply rbind_ok in Hw. destruct Hw as ([out off] & Ha & Hw). apply Ok_inj in Hw. subst out.
  unfold create_incremental in Hc. apply rbind_ok in Hc. destruct Hc as ([t0 any] & Hcol & Hc). apply changes_spec in Hcol. destruct Hcol as [Et Eany]. cbn [orb] in Eany.
  apply rbind_ok in Hc. destruct Hc as (m1 & Em & Hc). apply Ok_inj in Hc. assert (E1 := f_equal fst Hc). assert (E2 := f_equal snd Hc). cbn [fst snd] in E1, E2. subst t m1. clear Hc.
  assert (Hlen : N.of_nat (List.length t0) < 2 ^ 63).
  { rewrite Et. assert (G := add_all_length (changes (s :: r)) [list_head]). cbn [List.length] in G.
    assert (G2 : forall c, (List.length (changes c) <= List.length (flat_map f_items c))%nat).
    { clear. unfold changes. induction c as [|s c IH]; [cbn; lia|]. cbn [flat_map]. rewrite !app_length.
      assert (List.length (flat_map change (f_items s)) <= List.length (f_items s))%nat; [|lia]. clear. induction (f_items s) as [|x l IH]; [cbn; lia|].
      cbn [flat_map List.length]. rewrite app_length. assert (List.length (change x) <= 1)%nat; [|lia]. unfold change. destruct (f_dirty x); [|cbn; lia].
      destruct (xdata (f_entry x)) as [|? []|]; cbn; lia. }
    specialize (G2 (s :: r)). change (2 ^ 63) with 9223372036854775808 in *. lia. }
  assert (Hlens : N.of_nat (List.length (s_entries (as_section s))) < 2 ^ 63).
  { cbn [as_section s_entries]. rewrite map_length. cbn [flat_map] in Hn. rewrite app_length in Hn. change (2 ^ 63) with 9223372036854775808 in *. lia. }
  assert (W1 := clone_writable (as_section s) Ht Hlens).
  assert (Hm : writable (ODict m) /\ (forall k, all_bytes k -> k <> str "Prev" -> sm_find k m = sm_find k (clone_trailer (as_section s))) /\
    sm_find (str "Prev") m = match sm_find (str "Prev") (f_trailer s) with Some v => Some v | None => if any then Some (OInt (f_offset s)) else None end).
  { assert (Ep : sm_find (str "Prev") (clone_trailer (as_section s)) = sm_find (str "Prev") (f_trailer s)).
    { rewrite clone_find; [reflexivity|unfold trailer_keys; cbn; tauto|discriminate]. }
    destruct any.
    - unfold dict_insert in Em. cbn [negb andb] in Em. apply Ok_inj in Em. subst m. destruct (writable_parts _ W1) as (S1 & K1 & _). split; [|split].
      + apply writable_insert; [exact W1|apply str_bytes|apply writable_nat; exact Hoff|discriminate].
      + intros k Hk Hne. rewrite sm_find_insert by (assumption || apply str_bytes). destruct (sm_find k _); [reflexivity|].
        destruct (list_eq_dec N.eq_dec k (str "Prev")); [contradiction|reflexivity].
      + rewrite sm_find_insert by (assumption || apply str_bytes). rewrite Ep. destruct (sm_find (str "Prev") (f_trailer s)); [reflexivity|].
        destruct (list_eq_dec N.eq_dec (str "Prev") (str "Prev")); [reflexivity|congruence].
    - apply Ok_inj in Em. subst m. split; [exact W1|split; [reflexivity|]]. rewrite Ep. destruct (sm_find (str "Prev") (f_trailer s)); reflexivity. }
  destruct Hm as (M1 & M2 & M3).
  set (m2 := clone_trailer {| s_kind := STable; s_entries := map fst t0; s_hybrid := None; s_trailer := m |}) in *.
  assert (W2 : writable (ODict m2)) by (apply clone_writable; [exact M1|cbn [s_entries]; rewrite map_length; exact Hlen]).
  assert (F2 : forall k, In k trailer_keys -> k <> str "Size" -> sm_find k m2 = sm_find k m) by (intros k Hk Hne; unfold m2; rewrite clone_find by assumption; reflexivity).
  assert (Hfit' : (Z.of_nat (List.length file') < 2 ^ 63)%Z) by exact Hfit.
  assert (Hst : StronglySorted N.lt (map (fun p => xnum (fst p)) t0)) by (rewrite Et; apply add_all_sorted; repeat constructor).
  assert (Hsave := changes_ok (s :: r) Hsv). rewrite <- Et in Hsave.
  destruct (append_read decode rl (file ++ [10]) t0 m2 file' off Hst (saveable_used rl _ Hsave) W2 Ha Hfit' Hlen) as ((p & Ep) & L1 & _ & sec & L3 & L4).
  destruct (size_written m2 (List.length t0) W2 Hlen) as (Z1 & Z2 & Z3 & Z4). specialize (L4 []). rewrite app_nil_r in L4. destruct L4 as [K1 K2].
  exists off, sec. split; [exists p; rewrite Ep, <- app_assoc; reflexivity|]. split; [exact L1|]. split; [exact K1|]. split; [rewrite <- Et; exact K2|]. split; [|split].
  - rewrite L3, Z4, F2, M2 by (apply str_bytes || discriminate || (unfold trailer_keys; cbn; tauto)).
    rewrite clone_find by (discriminate || (unfold trailer_keys; cbn; tauto)). reflexivity.
  - intros k Hk. assert (G : all_bytes k /\ k <> str "Size" /\ k <> str "Prev" /\ In k trailer_keys).
    { cbn [In] in Hk. destruct Hk as [<-|[<-|[<-|[<-|[]]]]]; (split; [apply str_bytes|]; split; [discriminate|]; split; [discriminate|unfold trailer_keys; cbn; tauto]). }
    destruct G as (G1 & G2 & G3 & G4). rewrite L3, Z4, F2, M2, clone_find by assumption. reflexivity.
  - rewrite L3, Z4, F2, M3 by (apply str_bytes || discriminate || (unfold trailer_keys; cbn; tauto)). rewrite Eany. reflexivity.
Qed.
Lemma incremental_read : forall file s r file', changes_saveable entry_saveable storable (s :: r) ->
  writable (ODict (f_trailer s)) -> (forall v, ~ In (str "XRefStm", v) (f_trailer s)) -> (0 <= f_offset s < 2 ^ 63)%Z ->
  N.of_nat (List.length (flat_map f_items (s :: r))) + 1 < 2 ^ 63 ->
  write_incremental file (s :: r) = Ok file' -> fits file' ->
  exists off sec, (exists more, file' = file ++ [10] ++ more) /\ last_xref_offset file' = Ok off /\
    (forall c, read_section parser_dictionary decode file' c off = Ok (c, sec)) /\
    holds_section parser_dictionary rl file' sec (add_all (changes (s :: r)) [list_head]) /\
    sm_find (str "XRefStm") (s_trailer sec) = None /\
    (forall k, In k [str "Root"; str "Info"; str "ID"; str "Encrypt"] -> sm_find k (s_trailer sec) = sm_find k (f_trailer s)) /\
    sm_find (str "Prev") (s_trailer sec) =
      match sm_find (str "Prev") (f_trailer s) with
      | Some v => Some v
      | None => if existsb (fun s => some_dirty (f_items s)) (s :: r) then Some (OInt (f_offset s)) else None
      end.
Proof.
  intros file s r file' Hsv Ht Hx Hoff Hn Hw Hfit. destruct (incremental_read_any file s r file' Hsv Ht Hoff Hn Hw Hfit) as (off & sec & E0 & E1 & E2 & E3 & E4 & E5).
  exists off, sec. split; [exact E0|]. split; [exact E1|]. split; [exact E2|]. split; [exact E3|]. split; [|exact E5].
  rewrite E4. apply not_in_find; [exact Ht|apply str_bytes|exact Hx].
Qed.
End Incremental.

(** Saved files follow the standard. *)
From Coq Require Import List NArith ZArith Bool Lia String Sorted.
From Coq Require Import List.
From Verif.Model Require Import Base Char Numbers SMap Object Token Parser Arith Containers Xref StartXref Header FileWrite Chain Merge Update.
From Verif.Spec Require Import Strings Grammar Containers Xref FileWrite Chain Merge Update Conforming Written.
From Verif.Proof Require Import Tac Numbers Strings Token SMap Parser Writer StreamObj Arith Xref StartXref FileWrite Containers Chain Merge Update Crash Conforming.
Import ListNotations.
Local Open Scope N_scope.

(** ** rows *)
Lemma short_digits : forall k n, (1 <= k)%nat -> n < 10 ^ N.of_nat k -> (List.length (to_string_N n) <= k)%nat.
Proof.
  induction k as [|k IH]; intros n Hk Hn; [lia|]. destruct (N.lt_ge_cases n 10) as [H|H].
  - assert (E : List.length (to_string_N n) = 1%nat); [|lia].
    assert (A : forallb (fun n => (List.length (to_string_N n) =? 1)%nat) [0; 1; 2; 3; 4; 5; 6; 7; 8; 9] = true) by reflexivity.
    rewrite forallb_forall in A. apply Nat.eqb_eq, A. cbn [In]. lia.
  - rewrite last_digit by exact H. rewrite app_length. cbn [List.length].
    replace (N.of_nat (S k)) with (N.succ (N.of_nat k)) in Hn by lia. rewrite N.pow_succ_r' in Hn.
    assert (Hk' : (1 <= k)%nat) by (destruct k as [|k]; [cbn in Hn; lia|lia]).
    specialize (IH (n / 10) Hk'). assert (n / 10 < 10 ^ N.of_nat k) by (apply N.div_lt_upper_bound; lia). specialize (IH ltac:(assumption)). lia.
Qed.
Lemma long_digits : forall k n, 10 ^ N.of_nat k <= n -> (k < List.length (to_string_N n))%nat.
Proof.
  induction k as [|k IH]; intros n Hn.
  - destruct (padded_decimal 0 n) as (_ & H & _). change (pad_zero 0 (to_string_N n)) with (to_string_N n) in H. destruct (to_string_N n); [congruence|cbn; lia].
  - replace (N.of_nat (S k)) with (N.succ (N.of_nat k)) in Hn by lia. rewrite N.pow_succ_r' in Hn.
    assert (0 < 10 ^ N.of_nat k) by (apply N.neq_0_lt_0, N.pow_nonzero; discriminate).
    rewrite last_digit by lia. rewrite app_length. cbn [List.length]. assert (10 ^ N.of_nat k <= n / 10) by (apply N.div_le_lower_bound; lia).
    specialize (IH (n / 10) ltac:(assumption)). lia.
Qed.
Lemma padded_length : forall w n, (1 <= w)%nat -> n < 10 ^ N.of_nat w -> List.length (pad_zero w (to_string_N n)) = w.
Proof. intros w n Hw Hn. assert (H := short_digits w n Hw Hn). unfold pad_zero. rewrite app_length, repeat_length. lia. Qed.
Lemma padded_number : forall w n, number_text (pad_zero w (to_string_N n)) n.
Proof. intros w n. destruct (padded_decimal w n) as (H1 & H2 & H3). repeat split; assumption. Qed.
Lemma number_written : forall n, number_text (to_string_N n) n.
Proof. intros n. exact (padded_number 0 n). Qed.

Definition row_of (e : xentry) : row :=
  match xdata e with KUsed off _ => InUse (Z.to_N off) (xgen e) | _ => Free (xgen e) end.
Definition small (e : xentry) : Prop :=
  match xdata e with KFree next => next < 10 ^ 10 | KUsed off _ => (off < 10 ^ 10)%Z | KComp _ _ => False end.
Lemma row_conforms : forall e, entry_in_range e -> small e -> row_text (table_row e) (row_of e).
Proof.
  intros [n g data] (_ & Hg & Hd) Hs. unfold small, row_of, table_row in *. cbn [xgen xdata] in *.
  assert (G : List.length (pad_zero 5 (to_string_N g)) = 5%nat) by (apply padded_length; [lia|change (10 ^ N.of_nat 5) with 100000; lia]).
  assert (P : forall a, a < 10 ^ 10 -> List.length (pad_zero 10 (to_string_N a)) = 10%nat) by (intros a Ha; apply padded_length; [lia|exact Ha]).
  destruct data as [next|off u|a b]; [| |destruct Hs].
  - exists (pad_zero 10 (to_string_N next)), (pad_zero 5 (to_string_N g)), 102, [32; 10], next, g. rewrite !fmt_0_ok.
    split; [reflexivity|]. split; [apply P, Hs|]. split; [apply padded_number|]. split; [exact G|]. split; [apply padded_number|].
    split; [exact Hg|]. split; [cbn; tauto|]. auto.
  - destruct Hd as [Ho ->]. exists (pad_zero 10 (to_string_N (Z.to_N off))), (pad_zero 5 (to_string_N g)), 110, [32; 10], (Z.to_N off), g.
    replace off with (Z.of_N (Z.to_N off)) at 1 by lia. rewrite !fmt_0_ok.
    split; [reflexivity|]. split; [apply P; change (10 ^ 10) with 10000000000; change (10 ^ 10)%Z with 10000000000%Z in Hs; lia|]. split; [apply padded_number|]. split; [exact G|]. split; [apply padded_number|].
    split; [exact Hg|]. split; [cbn; tauto|]. auto.
Qed.

(** ** subsections *)
Definition listing (e : xentry) : N * row := (xnum e, row_of e).
Lemma consecutive_rows : forall l first, consecutive first l ->
  combine (map (fun i => first + N.of_nat i) (List.seq 0 (List.length l))) (map row_of l) = map listing l.
Proof.
  assert (G : forall l first s, consecutive (first + N.of_nat s) l -> combine (map (fun i => first + N.of_nat i) (List.seq s (List.length l))) (map row_of l) = map listing l).
  { induction l as [|e l IH]; intros first s H; [reflexivity|]. destruct H as [H1 H2]. cbn [List.length List.seq map combine]. unfold listing at 1. rewrite H1. f_equal.
    apply IH. replace (first + N.of_nat (S s)) with (first + N.of_nat s + 1) by lia. exact H2. }
  intros l first H. apply G. rewrite N.add_0_r. exact H.
Qed.
Lemma consecutive_bound : forall l n, consecutive n l -> Forall entry_in_range l -> l <> [] -> n + N.of_nat (List.length l) <= 2 ^ 63.
Proof.
  induction l as [|x l IHl]; intros n Hcc Hrr Hne; [congruence|]. cbn [consecutive] in Hcc. destruct Hcc as [H1 H2].
  inversion Hrr as [|? ? Hx Hrr']; subst. destruct l as [|y l].
  - cbn [List.length]. destruct Hx as (Hx & _). change (2 ^ 63) with 9223372036854775808 in *. lia.
  - specialize (IHl (xnum x + 1) H2 Hrr' ltac:(discriminate)). cbn [List.length] in *. lia.
Qed.
Lemma subsections_conform : forall fuel l text, write_subsections fuel l = Ok text -> xsorted l -> Forall entry_in_range l -> Forall small l ->
  exists subs lists, text = concat subs /\ Forall2 subsection_text subs lists /\ concat lists = map listing l.
Proof.
  induction fuel as [|fuel IH]; intros l text H Hs Hr Hm.
  - destruct l as [|e l]; cbn [write_subsections] in H; [|discriminate H]. apply Ok_inj in H. subst text. exists [], []. repeat constructor.
  - destruct l as [|e l]; cbn [write_subsections] in H. { apply Ok_inj in H. subst text. exists [], []. repeat constructor. }
    inversion Hs as [|? ? Hs' Hlt]; subst. inversion Hr as [|? ? Hre Hrl]; subst.
    destruct (run_length_ok l (xnum e) 1) as (k & Hk & Ek & Hck); [exact Hs'|exact Hrl| |].
    { rewrite Forall_forall in *. intros x Hx. specialize (Hlt x Hx). unfold xlt in Hlt. lia. }
    rewrite Ek in H. cbn [rbind] in H. replace (N.to_nat (1 + N.of_nat k)) with (S k) in H by lia. cbn [skipn firstn] in H.
    apply rbind_ok in H. destruct H as (r & Hrr & H). apply Ok_inj in H.
    set (l1 := e :: firstn k l) in *. set (l2 := skipn k l) in *.
    assert (Hl : e :: l = l1 ++ l2) by (unfold l1, l2; cbn [app]; rewrite firstn_skipn; reflexivity).
    assert (Hlen1 : List.length l1 = S k) by (unfold l1; cbn [List.length]; rewrite firstn_length; lia).
    rewrite Hl in Hs, Hr, Hm |- *. apply xsorted_app in Hs. destruct Hs as (_ & Hs2 & _). apply Forall_app in Hr. destruct Hr as [Hr1 Hr2].
    apply Forall_app in Hm. destruct Hm as [Hm1 Hm2].
    destruct (IH _ _ Hrr Hs2 Hr2 Hm2) as (subs & lists & -> & F & E).
    assert (Hc : consecutive (xnum e) l1) by (unfold l1; cbn [consecutive]; split; [reflexivity|exact Hck]).
    exists ((to_string_N (xnum e) ++ [32] ++ to_string_N (1 + N.of_nat k) ++ [10] ++ concat (map table_row l1)) :: subs), (map listing l1 :: lists).
    split; [|split].
    + rewrite <- H. cbn [concat]. rewrite flat_map_concat_map. rewrite <- !app_assoc. reflexivity.
    + constructor; [|exact F]. rewrite <- (consecutive_rows l1 (xnum e) Hc). rewrite <- (map_length row_of l1).
      apply (sub (to_string_N (xnum e)) (xnum e) (to_string_N (1 + N.of_nat k)) [10] (map table_row l1) (map row_of l1)).
      * apply number_written.
      * rewrite map_length, Hlen1. replace (1 + N.of_nat k) with (N.of_nat (S k)) by lia. apply number_written.
      * left. reflexivity.
      * clear - Hr1 Hm1. induction l1 as [|x l1 IH]; [constructor|]. inversion Hr1; inversion Hm1; subst. constructor; [apply row_conforms; assumption|apply IH; assumption].
      * rewrite map_length. apply consecutive_bound; [exact Hc|exact Hr1|discriminate].
    + cbn [concat]. rewrite E, map_app. reflexivity.
Qed.
Lemma table_conforms : forall t m table, write_xref_table t (ODict m) = Ok table -> xsorted t -> Forall entry_in_range t -> Forall small t -> writable (ODict m) ->
  exists text, table = text ++ [10] /\ section_text text {| r_rows := map listing t; r_trailer := m |}.
Proof.
  intros t m table H Hs Hr Hm Hw. unfold write_xref_table in H. apply rbind_ok in H. destruct H as (subs & Hsub & H). apply Ok_inj in H.
  destruct (subsections_conform _ _ _ Hsub Hs Hr Hm) as (texts & lists & -> & F & E).
  exists (str "xref" ++ [10] ++ concat texts ++ str "trailer" ++ [10] ++ to_pdf (ODict m)). split; [rewrite <- H, <- !app_assoc; reflexivity|].
  rewrite <- E. apply sec; [left; reflexivity|exact F| |exact gap10|apply to_pdf_text, Hw].
  rewrite E, map_map. cbn [listing fst]. clear - Hs. induction Hs as [|x t Hs IH Ha]; [constructor|]. cbn [map]. constructor; [|exact IH].
  intros Hin. apply in_map_iff in Hin. destruct Hin as (y & Ey & Hy). rewrite Forall_forall in Ha. specialize (Ha y Hy). unfold xlt in Ha. lia.
Qed.

(** ** one section *)
Lemma stored_written : forall o, stored o -> complete_text (to_pdf o) o.
Proof. intros o [o' H|m data H Hin]; [left; apply to_pdf_text, H|right; apply written_stream_text; assumption]. Qed.
(** the rows of a section and its objects: [R] relates the object of the document with the one in the file, [P] its text *)
Definition written_as (R : obj -> obj -> Prop) (P : list N -> obj -> Prop) (file : bytes) (r : revision) (s : saved_section) : Prop :=
  map fst (r_rows r) = map (fun p => xnum (fst p)) (fst s) /\
  forall e o, In (e, o) (fst s) ->
    match xdata e with
    | KUsed _ _ => exists pos o', In (xnum e, InUse pos (xgen e)) (r_rows r) /\ object_at P file pos (xnum e) (xgen e) o' /\ R o o'
    | _ => In (xnum e, Free (xgen e)) (r_rows r)
    end.
Definition written : bytes -> revision -> saved_section -> Prop := written_as same_object complete_text.
(** what is written once the lengths of the streams are set *)
Definition section_rest (out : bytes) (l1 : list (xentry * obj)) (trailer : list (bytes * obj)) : res (bytes * Z) :=
  let trailer' := set_size trailer (recalculate_size (map fst l1)) in
  let '(body, l2) := write_objects None (N.of_nat (List.length out)) l1 in
  do table <- write_xref_table (map fst l2) (ODict trailer');;
  let offset := Z.of_nat (List.length (out ++ body ++ [10])) in
  Ok (out ++ body ++ [10] ++ table ++ write_xref_offset offset, offset).
Lemma rest_conforms : forall (R : obj -> obj -> Prop) (P : list N -> obj -> Prop) out l l1 trailer out' off,
  StronglySorted N.lt (map (fun p => xnum (fst p)) l) ->
  Forall (fun p => entry_saveable (fst p)) l ->
  Forall2 (fun a b => fst b = fst a /\ (used_in_use (fst a) -> R (snd a) (snd b) /\ P (to_pdf (snd b)) (snd b))) l l1 ->
  short_links (l, trailer) -> writable (ODict trailer) ->
  section_rest out l1 trailer = Ok (out', off) -> (Z.of_nat (List.length out') <= 10 ^ 10)%Z -> N.of_nat (List.length l) < 2 ^ 63 ->
  (exists p, out' = out ++ p) /\ (0 <= off < 10 ^ 10)%Z /\
  (exists before, out' = before ++ [10] ++ str "startxref" ++ [10] ++ to_string_N (Z.to_N off) ++ [10] ++ str "%%EOF" ++ [10]) /\
  exists r, r_trailer r = set_size trailer (N.of_nat (List.length l)) /\
    forall suffix, written_as R P (out' ++ suffix) r (l, trailer) /\
      exists text more, section_text text r /\ token_ends more /\ stands_at (out' ++ suffix) (Z.to_N off) text ([10] ++ str "startxref" ++ more).
Proof.
  intros R P out l l1 trailer file off Hs Hl F1 Hten Ht Hw Hlen Hcnt. unfold section_rest in Hw. cbn zeta in Hw.
  assert (Hl1 : Forall (fun p => entry_saveable (fst p)) l1).
  { clear - Hl F1. induction F1 as [|a b l l1 (K & _) F IH]; [constructor|]. inversion Hl as [|? ? A H]; subst. constructor; [rewrite K; auto|auto]. }
  assert (Elen : List.length l1 = List.length l) by (clear - F1; induction F1; cbn; auto).
  assert (Esz : recalculate_size (map fst l1) = N.of_nat (List.length l)) by (unfold recalculate_size; rewrite map_length, Elen; reflexivity).
  rewrite Esz in Hw.
  assert (Ho := fun after => write_objects_ok l1 (N.of_nat (List.length out)) out after eq_refl Hl1).
  destruct (write_objects None (N.of_nat (List.length out)) l1) as [body l2] eqn:E2. cbn [fst snd] in Ho.
  apply rbind_ok in Hw. destruct Hw as (table & Etab & Hw). apply Ok_inj in Hw.
  assert (Efile := f_equal fst Hw). assert (Eoff := f_equal snd Hw). cbn [fst snd] in Efile, Eoff. clear Hw. rewrite Eoff in Efile.
  set (m' := set_size trailer (N.of_nat (List.length l))) in *.
  assert (Hw0 : (1 <= List.length (write_xref_offset off))%nat) by (unfold write_xref_offset; rewrite app_length; cbn; lia).
  assert (Hfl : Z.of_nat (List.length file) = (off + Z.of_nat (List.length table) + Z.of_nat (List.length (write_xref_offset off)))%Z).
  { rewrite <- Efile. generalize (write_xref_offset off). intros W. rewrite <- Eoff. rewrite !app_length. lia. }
  assert (Hbody : (Z.of_nat (List.length out) + Z.of_nat (List.length body) + 1 = off)%Z) by (rewrite <- Eoff; rewrite !app_length; cbn [List.length]; lia).
  change (10 ^ 10)%Z with 10000000000%Z in Hlen.
  assert (Hnums : map (fun p => xnum (fst p)) l2 = map (fun p => xnum (fst p)) l).
  { rewrite (Forall2_nums _ _ _ (fun a b (H : placed _ _ _ a b) => proj1 H) (Ho [])).
    refine (Forall2_nums _ _ _ _ F1). intros a b [K _]. rewrite K. reflexivity. }
  assert (Hs2 : xsorted (map fst l2)) by (apply sorted_nums; rewrite Hnums; exact Hs).
  assert (Hten1 : forall e o next, In (e, o) l1 -> xdata e = KFree next -> next < 10 ^ 10).
  { intros e o next Hin Hd. assert (G : exists o0, In (e, o0) l). { clear - Hin F1. induction F1 as [|a b l l1 (K & _) F IH]; [destruct Hin|].
      destruct Hin as [->|Hin]; [cbn [fst] in K; subst e; exists (snd a); left; destruct a; reflexivity|destruct (IH Hin) as (o0 & H); exists o0; right; exact H]. }
    destruct G as (o0 & G). exact (Hten e o0 next G Hd). }
  assert (Hr2 : Forall entry_in_range (map fst l2) /\ Forall small (map fst l2)).
  { assert (Hx := Ho []). clear - Hx Hl1 Hlen Hfl Hbody Hten1. induction Hx as [|a b l1 l2 (P1 & P2 & P3 & P4) F IH]; [split; constructor|].
    inversion Hl1 as [|? ? B H]; subst. destruct (IH H) as [I1 I2]; [intros e o next Hin; apply (Hten1 e o); right; exact Hin|]. cbn [map].
    specialize (Hten1 (fst a) (snd a)). destruct a as [[an ag ad] ao], b as [[bn bg bd] bo].
    unfold entry_saveable in B. cbn [fst snd xnum xgen xdata] in *. subst.
    destruct ad as [next|o u|s i]; [| |destruct B as (_ & _ & [])].
    - inversion P4; subst. split; (constructor; [|assumption]); [exact B|]. unfold small. cbn [xdata]. apply Hten1; [left; reflexivity|reflexivity].
    - destruct P4 as (pos & -> & Hpos & _). split; (constructor; [|assumption]); unfold entry_in_range, small; cbn [xnum xgen xdata].
      + destruct B as (B1 & B2 & B3). change (2 ^ 63)%Z with 9223372036854775808%Z. repeat split; auto; try lia.
      + change (10 ^ 10)%Z with 10000000000%Z. lia. }
  destruct Hr2 as [Hr2 Hm2].
  assert (Hsize : writable (OInt (Z.of_N (N.of_nat (List.length l))))).
  { apply w_int. change (2 ^ 63) with 9223372036854775808 in Hcnt. change (2 ^ 63)%Z with 9223372036854775808%Z. lia. }
  assert (Hwm : writable (ODict m')) by (apply writable_set; [exact Ht|apply str_bytes|exact Hsize|discriminate]).
  destruct (table_conforms _ _ _ Etab Hs2 Hr2 Hm2 Hwm) as (text & Etext & Hsec).
  assert (Ez : to_string_Z off = to_string_N (Z.to_N off)) by (unfold to_string_Z; replace (off <? 0)%Z with false by lia; reflexivity).
  split; [exists (body ++ [10] ++ table ++ write_xref_offset off); symmetry; exact Efile|].
  split; [change (10 ^ 10)%Z with 10000000000%Z; lia|].
  split. { exists (out ++ body ++ [10] ++ text). rewrite <- Efile, Etext. unfold write_xref_offset. rewrite Ez, <- !app_assoc. reflexivity. }
  exists {| r_rows := map listing (map fst l2); r_trailer := m' |}. split; [reflexivity|]. intros suffix. split.
  - split. { cbn [r_rows fst]. rewrite !map_map. rewrite <- Hnums. reflexivity. }
    cbn [fst r_rows]. assert (Ho' := Ho ([10] ++ table ++ write_xref_offset off ++ suffix)).
    replace (out ++ body ++ [10] ++ table ++ write_xref_offset off ++ suffix) with (file ++ suffix) in Ho' by (rewrite <- Efile, <- !app_assoc; reflexivity).
    intros e o Hin. destruct (Forall2_In _ _ _ _ _ _ F1 Hin) as ([e1 o1] & Hin1 & (K1 & K2)). cbn [fst snd] in *. subst e1.
    destruct (Forall2_In _ _ _ _ _ _ Ho' Hin1) as ([e2 o2] & Hin2 & (P1 & P2 & P3 & P4)). cbn [fst snd] in *. subst o2.
    assert (Hl2 : In (listing e2) (map listing (map fst l2))) by (apply in_map; apply (in_map fst) in Hin2; exact Hin2).
    rewrite Forall_forall in Hl. assert (B := Hl _ Hin). cbn [fst snd] in *. destruct e as [num gen data], e2 as [num2 gen2 data2].
    unfold entry_saveable, used_in_use, listing, row_of in *. cbn [xnum xgen xdata] in *. subst num2 gen2. destruct B as (B1 & B2 & B3).
    destruct data as [next|offset u|sn si]; [| |destruct B3].
    + inversion P4; subst. exact Hl2.
    + rewrite B3 in *. destruct P4 as (pos & -> & Hpos & Hst). destruct (K2 I) as (Hso & Hsd). rewrite N2Z.id in Hl2.
      exists pos, o1. split; [exact Hl2|]. split; [|exact Hso]. destruct Hst as (_ & before & after & Ef & Eb).
      exists (to_string_N num), [32], (to_string_N gen), [32], [10], (to_pdf o1), [10], ([10] ++ after).
      split. { exists before. split; [|lia]. rewrite Ef. unfold write_object. rewrite <- !app_assoc. reflexivity. }
      split; [apply number_written|]. split; [apply number_written|]. split; [exact gap32|]. split; [discriminate|]. split; [exact gap32|]. split; [discriminate|].
      split; [exact gap10|]. split; [exact gap10|]. split; [left; exact white10|]. split; [exact Hsd|]. split; [discriminate|left; exact white10].
  - exists text, ([10] ++ to_string_N (Z.to_N off) ++ [10] ++ str "%%EOF" ++ [10] ++ suffix). split; [exact Hsec|]. split; [left; exact white10|].
    exists (out ++ body ++ [10]). split; [|rewrite <- Eoff; lia]. rewrite <- Efile, Etext. unfold write_xref_offset. rewrite Ez, <- !app_assoc. reflexivity.
Qed.
Lemma append_conforms : forall out l trailer out' off,
  StronglySorted N.lt (map (fun p => xnum (fst p)) l) ->
  Forall (fun p => entry_saveable (fst p) /\ (used_in_use (fst p) -> storable (snd p))) l -> short_links (l, trailer) -> writable (ODict trailer) ->
  append_section out l trailer = Ok (out', off) -> (Z.of_nat (List.length out') <= 10 ^ 10)%Z -> N.of_nat (List.length l) < 2 ^ 63 ->
  (exists p, out' = out ++ p) /\ (0 <= off < 10 ^ 10)%Z /\
  (exists before, out' = before ++ [10] ++ str "startxref" ++ [10] ++ to_string_N (Z.to_N off) ++ [10] ++ str "%%EOF" ++ [10]) /\
  exists r, r_trailer r = set_size trailer (N.of_nat (List.length l)) /\
    forall suffix, written (out' ++ suffix) r (l, trailer) /\
      exists text more, section_text text r /\ token_ends more /\ stands_at (out' ++ suffix) (Z.to_N off) text ([10] ++ str "startxref" ++ more).
Proof.
  intros out l trailer file off Hs Hl Hten Ht Hw Hlen Hcnt. unfold append_section in Hw.
  destruct (recalculate_lengths_ok l Hl) as (l1 & E1 & F1). rewrite E1 in Hw. cbn [rbind] in Hw.
  apply (rest_conforms same_object complete_text out l l1 trailer file off); try assumption.
  - eapply Forall_impl; [|exact Hl]. intros p [H _]. exact H.
  - clear - F1. induction F1 as [|a b l l1 (K & C) F IH]; constructor; [|exact IH]. split; [exact K|]. intros Hu. destruct (C Hu) as [C1 C2]. split; [exact C1|apply stored_written, C2].
Qed.

(** ** all sections *)
Definition tail_of (file : bytes) (off : N) : Prop :=
  exists before, file = before ++ [10] ++ str "startxref" ++ [10] ++ to_string_N off ++ [10] ++ str "%%EOF" ++ [10].
Lemma revision_added : forall (Q : bytes -> Prop) out file off r prev revs,
  (forall v, ~ In (str "XRefStm", v) (r_trailer r)) ->
  match prev with
  | None => revs = [] /\ forall v, ~ In (str "Prev", v) (r_trailer r)
  | Some p => (0 <= p)%Z /\ In (str "Prev", OInt p) (r_trailer r) /\ forall suffix, revisions (out ++ suffix) (Z.to_N p) revs
  end -> (exists p, file = out ++ p) ->
  (forall suffix, Q suffix /\
     exists text more, section_text text r /\ token_ends more /\ stands_at (file ++ suffix) off text ([10] ++ str "startxref" ++ more)) ->
  forall suffix, revisions (file ++ suffix) off (r :: revs).
Proof.
  intros Q out file off r prev revs Hx Hp (q & Eq) Hr suffix. destruct (Hr suffix) as (_ & text & more & H1 & H2 & H3). destruct prev as [p|].
  - destruct Hp as (P1 & P2 & P3). apply (rev_newer _ off text r [10] more (Z.to_N p)); try assumption; [exact gap10|rewrite Z2N.id by exact P1; exact P2|].
    rewrite Eq, <- app_assoc. apply P3.
  - destruct Hp as (-> & P2). apply (rev_oldest _ off text r [10] more); try assumption. exact gap10.
Qed.
Lemma chain_conforms : forall c out prev file revs,
  match prev with
  | None => revs = [] /\ forall s rest v, c = s :: rest -> ~ In (str "Prev", v) (snd s)
  | Some p => (0 <= p < 10 ^ 10)%Z /\ forall suffix, revisions (out ++ suffix) (Z.to_N p) revs
  end ->
  Forall section_saveable c -> Forall short_links c -> c <> [] -> append_sections out prev c = Ok file -> (Z.of_nat (List.length file) <= 10 ^ 10)%Z ->
  exists revs' off, (forall suffix, revisions (file ++ suffix) off (revs' ++ revs)) /\ off < 10 ^ 10 /\
    Forall2 (fun r s => (forall suffix, written (file ++ suffix) r s) /\ same_trailer (snd s) (r_trailer r)) (rev revs') c /\ tail_of file off.
Proof.
  induction c as [|[l m] c IH]; intros out prev file revs Hp Hc Hk Hne H Hlen; [congruence|]. cbn [append_sections] in H.
  inversion Hc as [|? ? (Q1 & Q2 & Q3 & Q4 & Q5) Hc']; subst. inversion Hk as [|? ? K1 Hk']; subst. cbn [fst snd] in *.
  apply rbind_ok in H. destruct H as (m' & Em & H). apply rbind_ok in H. destruct H as ([out' offset] & Ha & H).
  destruct (append_sections_grow _ _ _ _ H) as (p & Ep).
  assert (Hlen' : (Z.of_nat (List.length out') <= 10 ^ 10)%Z) by (rewrite Ep, app_length in Hlen; lia).
  assert (Hm : writable (ODict m') /\ same_trailer m m' /\ sm_find (str "XRefStm") m' = None /\
    match prev with None => sm_find (str "Prev") m' = None | Some p => sm_find (str "Prev") m' = Some (OInt p) end).
  { assert (Qx := proj1 (not_in_find m (str "XRefStm") Q3 (str_bytes _)) Q4). destruct prev as [q|].
    - assert (Hq : (0 <= q < 2 ^ 63)%Z) by (destruct Hp as [Hq _]; change (10 ^ 10)%Z with 10000000000%Z in Hq; change (2 ^ 63)%Z with 9223372036854775808%Z; lia).
      destruct (prev_written _ _ _ Q3 Hq Em) as (W1 & W2 & W3 & W4). split; [exact W1|]. split; [exact W2|]. split; [rewrite W4 by (apply str_bytes || discriminate); exact Qx|exact W3].
    - apply Ok_inj in Em. subst m'. split; [exact Q3|]. split; [intros k v _ _; tauto|]. split; [exact Qx|]. apply not_in_find; [exact Q3|apply str_bytes|].
      intros v. exact (proj2 Hp (l, m) c v eq_refl). }
  destruct Hm as (W1 & W2 & W3 & W4). destruct (size_written m' (List.length l) W1 Q5) as (Z1 & Z2 & _ & Z4).
  destruct (append_conforms out l m' out' offset Q1 (saveable_used (fun _ _ => Undef) _ Q2) K1 W1 Ha Hlen' Q5) as (G1 & G2 & G3 & r & G4 & G5).
  assert (Hrev : forall suffix, revisions (out' ++ suffix) (Z.to_N offset) (r :: revs)).
  { apply (revision_added (fun suffix => written (out' ++ suffix) r (l, m')) out out' (Z.to_N offset) r prev revs); [| |exact G1|exact G5].
    - intros v Hv. rewrite G4 in Hv. apply in_find in Hv; [|exact Z1|apply str_bytes]. rewrite Z4 in Hv by (apply str_bytes || discriminate). congruence.
    - destruct prev as [q|].
      + destruct Hp as [P1 P2]. split; [lia|]. split; [|exact P2]. rewrite G4. apply in_find; [exact Z1|apply str_bytes|]. rewrite Z4 by (apply str_bytes || discriminate). exact W4.
      + split; [apply Hp|]. intros v Hv. rewrite G4 in Hv. apply in_find in Hv; [|exact Z1|apply str_bytes]. rewrite Z4 in Hv by (apply str_bytes || discriminate). congruence. }
  assert (Hst : same_trailer m (r_trailer r)) by (rewrite G4; apply (same_trailer_trans _ m'); assumption).
  assert (Hwr : forall suffix, written (file ++ suffix) r (l, m)).
  { intros suffix. destruct (G5 (p ++ suffix)) as [[X1 X2] _]. rewrite Ep, <- app_assoc. split; [exact X1|exact X2]. }
  destruct c as [|s c].
  - cbn [append_sections] in H. apply Ok_inj in H. subst out'. exists [r], (Z.to_N offset). split; [exact Hrev|].
    split; [change (10 ^ 10)%Z with 10000000000%Z in G2; change (10 ^ 10) with 10000000000; lia|]. split; [|exact G3]. constructor; [|constructor]. split; [exact Hwr|exact Hst].
  - destruct (IH out' (Some offset) file (r :: revs)) as (revs' & off & I1 & I2 & I3 & I4); [split; [exact G2|exact Hrev]|exact Hc'|exact Hk'|discriminate|exact H|exact Hlen|].
    exists (revs' ++ [r]), off. split; [intros suffix; rewrite <- app_assoc; apply I1|]. split; [exact I2|]. split; [|exact I4].
    rewrite rev_app_distr. cbn [rev app]. constructor; [split; [exact Hwr|exact Hst]|exact I3].
Qed.

(** ** whole files *)
Lemma conforming_from : forall file v off revs, revisions file off revs -> off < 10 ^ 10 -> tail_of file off ->
  (exists e rest, line_end e /\ file = str "%PDF-" ++ version_digits v ++ e ++ rest) -> (Z.of_nat (List.length file) <= 10 ^ 10)%Z -> conforming file v revs.
Proof.
  intros file v off revs Hr Ho (before & Et) Hh Hl. exists off. split; [exact Hr|]. split; [exact Hh|]. split.
  - exists before, 10, [10], (to_string_N off), [10], [10]. split; [exact white10|]. split; [left; reflexivity|]. split; [apply number_written|].
    split; [left; reflexivity|]. split; [constructor; [exact white10|constructor]|]. split; [exact Et|].
    assert (H := short_digits 10 off ltac:(lia) Ho). cbn [List.length]. lia.
  - change (10 ^ 10)%Z with 10000000000%Z in Hl. change (2 ^ 63) with 9223372036854775808. lia.
Qed.
Lemma stored_body : forall file revs pos n g o, object_at complete_text file pos n g o -> object_at (body_of file revs) file pos n g o.
Proof.
  intros file revs pos n g o (dn & g1 & dg & g2 & g3 & txt & g4 & rest & H1 & H2 & H3 & H4 & H5 & H6 & H7 & H8 & H9 & H10 & H11 & H12).
  exists dn, g1, dg, g2, g3, txt, g4, rest. repeat (split; [assumption|]). split; [|exact H12]. destruct H11 as [H|H]; [left; exact H|].
  right. exists (fun _ _ => None). split; [discriminate|exact H].
Qed.
Lemma token_ends_app : forall a b, token_ends a -> token_ends b -> token_ends (a ++ b).
Proof. intros [|x a] b Ha Hb; [exact Hb|exact Ha]. Qed.
Lemma stands_grow : forall file x off text rest, stands_at file off text rest -> stands_at (file ++ x) off text (rest ++ x).
Proof. intros file x off text rest (before & -> & E). exists before. split; [rewrite <- !app_assoc; reflexivity|exact E]. Qed.
Lemma revisions_grow : forall file x, token_ends x -> forall off revs, revisions file off revs -> revisions (file ++ x) off revs.
Proof.
  intros file x Hx off revs H. induction H as [off text r g more H1 H2 H3 H4 H5 H6|off text r g more prev older H1 H2 H3 H4 H5 H6 H7 IH].
  - apply (rev_oldest _ off text r g (more ++ x)); try assumption; [|apply token_ends_app; assumption]. apply (stands_grow _ x) in H1. rewrite <- !app_assoc in H1. exact H1.
  - apply (rev_newer _ off text r g (more ++ x) prev); try assumption; [|apply token_ends_app; assumption]. apply (stands_grow _ x) in H1. rewrite <- !app_assoc in H1. exact H1.
Qed.
Lemma object_grow : forall body file x pos n g o, token_ends x -> object_at body file pos n g o -> object_at body (file ++ x) pos n g o.
Proof.
  intros body file x pos n g o Hx (dn & g1 & dg & g2 & g3 & txt & g4 & rest & H1 & H).
  exists dn, g1, dg, g2, g3, txt, g4, (rest ++ x). split; [apply (stands_grow _ x) in H1; exact H1|].
  destruct H as (H2 & H3 & H4 & H5 & H6 & H7 & H8 & H9 & H10 & H11 & H12 & H13). repeat (split; [assumption|]). apply token_ends_app; assumption.
Qed.

Lemma changes_links : forall c, short_links (add_all (changes c) [list_head], []).
Proof.
  intros c e o next Hin Hd. cbn [fst] in Hin. apply add_all_in in Hin. assert (G : next = 0); [|subst next; reflexivity]. destruct Hin as [Hin|[Hin|[]]].
  - unfold changes in Hin. apply in_flat_map in Hin. destruct Hin as (s & _ & Hin). apply in_flat_map in Hin. destruct Hin as (x & _ & Hin). unfold change in Hin.
    destruct (f_dirty x); [|destruct Hin]. destruct (xdata (f_entry x)) as [nx|a []|a b] eqn:E; cbn [In] in Hin; try (destruct Hin as [Hin|[]]; apply pair_equal_spec in Hin; destruct Hin as [<- _]; cbn [xdata] in Hd; congruence). destruct Hin.
  - apply pair_equal_spec in Hin. destruct Hin as [<- _]. cbn [xdata] in Hd. congruence.
Qed.
Lemma incremental_as : forall (R : obj -> obj -> Prop) (P : list N -> obj -> Prop) (ap : bytes -> list (xentry * obj) -> list (bytes * obj) -> res (bytes * Z)) file s r file',
  (forall out m out' off, writable (ODict m) -> ap out (add_all (changes (s :: r)) [list_head]) m = Ok (out', off) -> (Z.of_nat (List.length out') <= 10 ^ 10)%Z ->
     N.of_nat (List.length (add_all (changes (s :: r)) [list_head])) < 2 ^ 63 ->
     (exists p, out' = out ++ p) /\ (0 <= off < 10 ^ 10)%Z /\
     (exists before, out' = before ++ [10] ++ str "startxref" ++ [10] ++ to_string_N (Z.to_N off) ++ [10] ++ str "%%EOF" ++ [10]) /\
     exists r0, r_trailer r0 = set_size m (N.of_nat (List.length (add_all (changes (s :: r)) [list_head]))) /\
       forall suffix, written_as R P (out' ++ suffix) r0 (add_all (changes (s :: r)) [list_head], m) /\
         exists text more, section_text text r0 /\ token_ends more /\ stands_at (out' ++ suffix) (Z.to_N off) text ([10] ++ str "startxref" ++ more)) ->
  writable (ODict (f_trailer s)) -> (forall v, ~ In (str "XRefStm", v) (f_trailer s)) -> (0 <= f_offset s < 2 ^ 63)%Z ->
  N.of_nat (List.length (flat_map f_items (s :: r))) + 1 < 2 ^ 63 ->
  (do '(t, m) <- create_incremental (s :: r);;
   let m' := clone_trailer {| s_kind := STable; s_entries := map fst t; s_hybrid := None; s_trailer := m |} in
   do '(out, _) <- ap (file ++ [10]) t m';; Ok out) = Ok file' -> (Z.of_nat (List.length file') <= 10 ^ 10)%Z -> existsb (fun s => some_dirty (f_items s)) (s :: r) = true ->
  exists off rn more, file' = file ++ [10] ++ more /\ off < 10 ^ 10 /\ tail_of file' off /\
    written_as R P file' rn (add_all (changes (s :: r)) [list_head], []) /\
    (forall k, In k [str "Root"; str "Info"; str "ID"; str "Encrypt"] -> sm_find k (r_trailer rn) = sm_find k (f_trailer s)) /\
    (forall x, In (str "Size", x) (r_trailer rn) <-> x = OInt (Z.of_nat (List.length (add_all (changes (s :: r)) [list_head])))) /\
    forall prev revs, (0 <= prev)%Z -> revisions file (Z.to_N prev) revs ->
      sm_find (str "Prev") (f_trailer s) = None /\ prev = f_offset s \/ sm_find (str "Prev") (f_trailer s) = Some (OInt prev) ->
      revisions file' off (rn :: revs).
Proof.
  intros R P ap file s r file' Hap Ht Hx Hoff Hn Hw Hlenf Hany. apply rbind_ok in Hw. destruct Hw as ([t m] & Hc & Hw).
  apply rbind_ok in Hw. destruct Hw as ([out off] & Ha & Hw). apply Ok_inj in Hw. subst out.
  unfold create_incremental in Hc. apply rbind_ok in Hc. destruct Hc as ([t0 any] & Hcol & Hc). apply changes_spec in Hcol. destruct Hcol as [Et Eany]. cbn [orb] in Eany. rewrite Hany in Eany. subst any.
  apply rbind_ok in Hc. destruct Hc as (m1 & Em & Hc). apply Ok_inj in Hc. assert (E1 := f_equal fst Hc). assert (E2 := f_equal snd Hc). cbn [fst snd] in E1, E2. subst t m1. clear Hc.
  assert (Hlen : N.of_nat (List.length t0) < 2 ^ 63).
  { rewrite Et. assert (G := add_all_length (changes (s :: r)) [list_head]). cbn [List.length] in G.
    assert (G2 : forall c, (List.length (changes c) <= List.length (flat_map f_items c))%nat).
    { clear. unfold changes. induction c as [|s c IH]; [cbn; lia|]. cbn [flat_map]. rewrite !app_length.
      assert (List.length (flat_map change (f_items s)) <= List.length (f_items s))%nat; [|lia]. clear. induction (f_items s) as [|x l IH]; [cbn; lia|].
      cbn [flat_map List.length]. rewrite app_length. assert (List.length (change x) <= 1)%nat; [|lia]. unfold change. destruct (f_dirty x); [|cbn; lia].
      destruct (xdata (f_entry x)) as [|? []|]; cbn; lia. }
    specialize (G2 (s :: r)). change (2 ^ 63) with 9223372036854775808 in *. lia. }
  assert (Hlens : N.of_nat (List.length (s_entries (as_section s))) < 2 ^ 63).
  { cbn [as_section s_entries]. rewrite map_length. cbn [flat_map] in Hn. rewrite app_length in Hn. change (2 ^ 63) with 9223372036854775808 in *. lia. }
  assert (W1 := clone_writable (as_section s) Ht Hlens).
  assert (Hm : writable (ODict m) /\ (forall k, all_bytes k -> k <> str "Prev" -> sm_find k m = sm_find k (clone_trailer (as_section s))) /\
    sm_find (str "Prev") m = match sm_find (str "Prev") (f_trailer s) with Some v => Some v | None => Some (OInt (f_offset s)) end).
  { assert (Ep : sm_find (str "Prev") (clone_trailer (as_section s)) = sm_find (str "Prev") (f_trailer s)).
    { rewrite clone_find; [reflexivity|unfold trailer_keys; cbn; tauto|discriminate]. }
    unfold dict_insert in Em. cbn [negb andb] in Em. apply Ok_inj in Em. subst m. destruct (writable_parts _ W1) as (S1 & K1 & _). split; [|split].
    + apply writable_insert; [exact W1|apply str_bytes|apply writable_nat; exact Hoff|discriminate].
    + intros k Hk Hne. rewrite sm_find_insert by (assumption || apply str_bytes). destruct (sm_find k _); [reflexivity|].
      destruct (list_eq_dec N.eq_dec k (str "Prev")); [contradiction|reflexivity].
    + rewrite sm_find_insert by (assumption || apply str_bytes). rewrite Ep. destruct (sm_find (str "Prev") (f_trailer s)); [reflexivity|].
      destruct (list_eq_dec N.eq_dec (str "Prev") (str "Prev")); [reflexivity|congruence]. }
  destruct Hm as (M1 & M2 & M3).
  set (m2 := clone_trailer {| s_kind := STable; s_entries := map fst t0; s_hybrid := None; s_trailer := m |}) in *.
  assert (W2 : writable (ODict m2)) by (apply clone_writable; [exact M1|cbn [s_entries]; rewrite map_length; exact Hlen]).
  assert (F2 : forall k, In k trailer_keys -> k <> str "Size" -> sm_find k m2 = sm_find k m) by (intros k Hk Hne; unfold m2; rewrite clone_find by assumption; reflexivity).
  assert (Hst : StronglySorted N.lt (map (fun p => xnum (fst p)) t0)) by (rewrite Et; apply add_all_sorted; repeat constructor).
  rewrite <- Et in Hap. destruct (Hap (file ++ [10]) m2 file' off W2 Ha Hlenf Hlen) as ((p & Ep) & L1 & L2 & rn & L3 & L4).
  destruct (size_written m2 (List.length t0) W2 Hlen) as (Z1 & Z2 & Z3 & Z4).
  exists (Z.to_N off), rn, p. split; [rewrite Ep, <- app_assoc; reflexivity|]. split; [change (10 ^ 10)%Z with 10000000000%Z in L1; change (10 ^ 10) with 10000000000; lia|].
  split; [exact L2|]. split. { destruct (L4 []) as [[X1 X2] _]. rewrite app_nil_r in X2. rewrite <- Et. split; [exact X1|exact X2]. }
  split; [|split].
  - intros k Hk. assert (G : all_bytes k /\ k <> str "Size" /\ k <> str "Prev" /\ In k trailer_keys).
    { cbn [In] in Hk. destruct Hk as [<-|[<-|[<-|[<-|[]]]]]; (split; [apply str_bytes|]; split; [discriminate|]; split; [discriminate|unfold trailer_keys; cbn; tauto]). }
    destruct G as (G1 & G2 & G3 & G4). rewrite L3, Z4, F2, M2, clone_find by assumption. reflexivity.
  - intros x. rewrite L3, <- Et, (in_find _ _ _ Z1 (str_bytes _)), Z3. split; congruence.
  - intros prev revs Hp Hr Hprev. rewrite <- (app_nil_r file').
    apply (revision_added (fun suffix => written_as R P (file' ++ suffix) rn (t0, m2)) (file ++ [10]) file' (Z.to_N off) rn (Some prev) revs); [| |exists p; exact Ep|exact L4].
    + intros v Hv. rewrite L3 in Hv. apply in_find in Hv; [|exact Z1|apply str_bytes].
      rewrite Z4, F2, M2, clone_find in Hv by (apply str_bytes || discriminate || (unfold trailer_keys; cbn; tauto)). cbn [as_section s_trailer] in Hv.
      apply in_find in Hv; [|exact Ht|apply str_bytes]. exact (Hx v Hv).
    + split; [exact Hp|]. split.
      * rewrite L3. apply in_find; [exact Z1|apply str_bytes|]. rewrite Z4, F2, M3 by (apply str_bytes || discriminate || (unfold trailer_keys; cbn; tauto)).
        destruct Hprev as [[-> ->]| ->]; reflexivity.
      * intros suffix. rewrite <- app_assoc. apply revisions_grow; [left; exact white10|exact Hr].
Qed.
Lemma incremental_conforms : forall file s r file', changes_saveable entry_saveable storable (s :: r) ->
  writable (ODict (f_trailer s)) -> (forall v, ~ In (str "XRefStm", v) (f_trailer s)) -> (0 <= f_offset s < 2 ^ 63)%Z ->
  N.of_nat (List.length (flat_map f_items (s :: r))) + 1 < 2 ^ 63 ->
  write_incremental file (s :: r) = Ok file' -> (Z.of_nat (List.length file') <= 10 ^ 10)%Z -> existsb (fun s => some_dirty (f_items s)) (s :: r) = true ->
  exists off rn more, file' = file ++ [10] ++ more /\ off < 10 ^ 10 /\ tail_of file' off /\
    written file' rn (add_all (changes (s :: r)) [list_head], []) /\
    (forall k, In k [str "Root"; str "Info"; str "ID"; str "Encrypt"] -> sm_find k (r_trailer rn) = sm_find k (f_trailer s)) /\
    (forall x, In (str "Size", x) (r_trailer rn) <-> x = OInt (Z.of_nat (List.length (add_all (changes (s :: r)) [list_head])))) /\
    forall prev revs, (0 <= prev)%Z -> revisions file (Z.to_N prev) revs ->
      sm_find (str "Prev") (f_trailer s) = None /\ prev = f_offset s \/ sm_find (str "Prev") (f_trailer s) = Some (OInt prev) ->
      revisions file' off (rn :: revs).
Proof.
  intros file s r file' Hsv Ht Hx Hoff Hn Hw Hlenf Hany. apply (incremental_as same_object complete_text append_section file s r file'); try assumption.
  intros out m out' off Hm Ha Hl Hc. apply append_conforms; try assumption.
  - apply add_all_sorted. repeat constructor.
  - apply (saveable_used (fun _ _ => Undef)), changes_ok, Hsv.
  - exact (changes_links (s :: r)).
Qed.

(** ** the meaning *)
Lemma written_current : forall file revs c, Forall2 (written file) (rev revs) c -> forall e o, newest c e o ->
  exists r older newer, revs = newer ++ r :: older /\ (forall x row, In x newer -> ~ In (xnum e, row) (r_rows x)) /\
    match xdata e with
    | KUsed _ _ => exists pos o', In (xnum e, InUse pos (xgen e)) (r_rows r) /\ object_at complete_text file pos (xnum e) (xgen e) o' /\ same_object o o'
    | _ => In (xnum e, Free (xgen e)) (r_rows r)
    end.
Proof.
  intros file revs c F e o (older & s & newer & -> & Hin & Hno). apply Forall2_app_inv_r in F. destruct F as (ro & rest & F1 & F2 & E).
  inversion F2 as [|r s' rn n' [W1 W2] F3]; subst. exists r, (rev ro), (rev rn). split; [|split].
  - rewrite <- (rev_involutive revs), E, rev_app_distr. cbn [rev]. rewrite <- app_assoc. reflexivity.
  - intros x row Hx Hr. apply in_rev in Hx. clear - F3 Hx Hr Hno. induction F3 as [|a b la lb [A _] F IH]; [destruct Hx|]. destruct Hx as [->|Hx].
    + apply (in_map fst) in Hr. rewrite A in Hr. cbn [fst] in Hr. apply in_map_iff in Hr. destruct Hr as (p & Ep & Hp). exact (Hno b p (or_introl eq_refl) Hp Ep).
    + apply IH; [|exact Hx]. intros y p Hy. apply Hno. right. exact Hy.
  - exact (W2 e o Hin).
Qed.
Lemma written_unknown : forall file revs c n, Forall2 (written file) (rev revs) c -> unknown c n -> not_listed revs n.
Proof.
  intros file revs c n F Hn x row Hx Hr. apply in_rev in Hx. induction F as [|a b la lb [A _] F IH]; [destruct Hx|]. destruct Hx as [->|Hx].
  - apply (in_map fst) in Hr. rewrite A in Hr. cbn [fst] in Hr. apply in_map_iff in Hr. destruct Hr as (p & Ep & Hp). exact (Hn b p (or_introl eq_refl) Hp Ep).
  - apply IH; [|exact Hx]. intros s p Hs. apply Hn. right. exact Hs.
Qed.
Lemma add_all_numbers : forall c n, n <> 0 -> unchanged c n -> forall p, In p (add_all (changes c) [list_head]) -> xnum (fst p) <> n.
Proof.
  intros c n Hn Hu p Hp. apply add_all_in in Hp. destruct Hp as [Hp|[<-|[]]].
  - unfold changes in Hp. apply in_flat_map in Hp. destruct Hp as (s & Hs & Hp). apply in_flat_map in Hp. destruct Hp as (x & Hx & Hp).
    destruct (change_num _ _ Hp) as (D & -> & _). exact (Hu s x Hs Hx D).
  - cbn. congruence.
Qed.
Lemma changes_count : forall c, N.of_nat (List.length (add_all (changes c) [list_head])) <= change_count c + 1.
Proof.
  intros c. assert (G := add_all_length (changes c) [list_head]). cbn [List.length] in G. unfold change_count.
  assert (G2 : (List.length (changes c) <= List.length (filter f_dirty (flat_map f_items c)))%nat); [|lia]. clear. unfold changes. induction c as [|s c IH]; [cbn; lia|].
  cbn [flat_map]. rewrite filter_app, !app_length. assert (List.length (flat_map change (f_items s)) <= List.length (filter f_dirty (f_items s)))%nat; [|lia].
  clear. induction (f_items s) as [|x l IH]; [cbn; lia|]. cbn [flat_map filter]. rewrite app_length. unfold change at 1. destruct (f_dirty x); [|cbn [List.length]; lia].
  cbn [List.length]. destruct (xdata (f_entry x)) as [|? []|]; cbn [List.length]; lia.
Qed.
Lemma some_change : forall c e o, changed_live c e o -> existsb (fun s => some_dirty (f_items s)) c = true.
Proof.
  intros c e o (s & off & Hs & _ & Hx). apply existsb_exists. exists s. split; [exact Hs|]. unfold some_dirty. apply existsb_exists. eexists. split; [exact Hx|reflexivity].
Qed.

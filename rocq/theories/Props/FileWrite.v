(** C21: offsets recorded in a written file, and opening the file again. *)
From Coq Require Import List NArith ZArith Bool Lia String Sorted.
From Verif.Model Require Import Base Char Numbers SMap Object Token Parser Arith Xref StartXref Header FileWrite.
From Verif.Spec Require Import Strings Grammar Xref FileWrite.
From Verif.Proof Require Import Tac Numbers Parser Writer StreamObj Xref FileWrite.
Import ListNotations.
Local Open Scope N_scope.

(** A document with one classic section: entries with strictly increasing numbers, each in-use entry with the object it holds; a
    trailer dictionary without older sections.  The written file opens with the same version, the trailer dictionary with the
    Size of the section, exactly the numbers of the document; every in-use entry's recorded offset is where its object begins, and
    loading the entry gives its number, generation and object (the Length of a stream is corrected to the length of its data). *)
Theorem C21_written_file_reopens : forall rl v l trailer file,
  StronglySorted N.lt (map (fun p => xnum (fst p)) l) ->
  Forall (fun p => entry_saveable (fst p) /\ (used_in_use (fst p) -> storable (snd p))) l ->
  writable (ODict trailer) -> sm_find (str "Prev") trailer = None -> sm_find (str "XRefStm") trailer = None ->
  write_table_file v l trailer = Ok file -> (Z.of_nat (List.length file) < 2 ^ 63)%Z -> N.of_nat (List.length l) < 2 ^ 63 ->
  exists t, open_file parser_dictionary rl file = Ok (v, t, ODict (set_size trailer (N.of_nat (List.length l)))) /\
    (forall n, entry_for n t <> None <-> exists p, In p l /\ xnum (fst p) = n) /\
    forall e o, In (e, o) l ->
      match xdata e with
      | KUsed _ _ => exists offset o', entry_for (xnum e) t = Some (RUsed (xnum e) (xgen e) offset) /\
          starts_at file offset (object_heading (xnum e) (xgen e)) /\
          load_entry parser_dictionary rl file {| xnum := xnum e; xgen := xgen e; xdata := KUsed offset true |} = Ok (xnum e, xgen e, o') /\
          same_object o o'
      | _ => entry_for (xnum e) t = Some (RFree (xnum e) (xgen e) 0)
      end.
Proof.
  intros rl v l trailer file H1 H2 H3 H4 H5 H6 H7 H8. destruct (file_reopened rl v l trailer file H1 H2 H3 H4 H5 H6 H7 H8) as (t & E1 & E2 & E3).
  assert (E4 : forall e o, In (e, o) l ->
      match xdata e with
      | KUsed _ _ => exists offset o', entry_for (xnum e) t = Some (RUsed (xnum e) (xgen e) offset) /\
          starts_at file offset (object_heading (xnum e) (xgen e)) /\
          load_entry parser_dictionary rl file {| xnum := xnum e; xgen := xgen e; xdata := KUsed offset true |} = Ok (xnum e, xgen e, o') /\
          same_object o o'
      | _ => entry_for (xnum e) t = Some (RFree (xnum e) (xgen e) 0)
      end).
  { intros e o Hin. specialize (E3 e o Hin). unfold entry_for. destruct (xdata e).
    - rewrite E3. reflexivity.
    - destruct E3 as (off & o' & F & G & L & S). exists off, o'. rewrite F. auto.
    - rewrite E3. reflexivity. }
  exists t. split; [exact E1|]. split; [|exact E4]. intros n. split; [apply E2|]. intros ([e o] & Hin & <-). cbn [fst].
  specialize (E4 e o Hin). destruct (xdata e); [rewrite E4; discriminate| |rewrite E4; discriminate].
  destruct E4 as (off & o' & F & _). rewrite F. discriminate.
Qed.
(** writing such a document does not fail *)
Theorem C21_write_succeeds : forall v l trailer,
  StronglySorted N.lt (map (fun p => xnum (fst p)) l) ->
  Forall (fun p => entry_saveable (fst p) /\ (used_in_use (fst p) -> storable (snd p))) l ->
  exists file, write_table_file v l trailer = Ok file.
Proof.
  intros v l trailer Hs Hl. unfold write_table_file. destruct (recalculate_lengths_ok l Hl) as (l1 & E1 & F1). rewrite E1. cbn [rbind].
  assert (Hl1 : Forall (fun p => entry_saveable (fst p)) l1).
  { clear - Hl F1. induction F1 as [|a b l l1 (K & _) F IH]; [constructor|]. inversion Hl as [|? ? (A & _) H]; subst. constructor; [rewrite K; auto|auto]. }
  assert (Ho := write_objects_ok l1 (N.of_nat (List.length (write_header v))) (write_header v) [] eq_refl Hl1).
  destruct (write_objects None (N.of_nat (List.length (write_header v))) l1) as [body l2]. cbn [fst snd] in Ho.
  assert (Hnums : map (fun p => xnum (fst p)) l2 = map (fun p => xnum (fst p)) l).
  { rewrite (Forall2_nums _ _ _ (fun a b (H : placed _ _ _ a b) => proj1 H) Ho).
    apply (Forall2_nums kept); [intros a b [K _]; rewrite K; reflexivity|exact F1]. }
  assert (Hsub : forall f t, (List.length t <= f)%nat -> Forall (fun e => xnum e < 2 ^ 63) t -> xsorted t -> exists txt, write_subsections f t = Ok txt).
  { clear. induction f as [|f IH]; intros t Hf Hr Hs; (destruct t as [|e t]; [eexists; reflexivity|]); [cbn in Hf; lia|].
    cbn [write_subsections].
    assert (Hrun : forall t idx j, Forall (fun e => xnum e < 2 ^ 63) t -> idx + j <= 2 ^ 63 -> exists n, run_length idx j t = Ok n /\ j <= n).
    { clear. induction t as [|e t IH]; intros idx j Hr Hij; cbn [run_length]; [eexists; split; [reflexivity|lia]|].
      inversion Hr as [|? ? He Ht]; subst. rewrite add_u64_ok by (change (2 ^ 64) with 18446744073709551616; change (2 ^ 63) with 9223372036854775808 in *; lia).
      cbn [rbind]. destruct (xnum e =? idx + j) eqn:E; [|eexists; split; [reflexivity|lia]].
      destruct (IH idx (j + 1) Ht) as (n & En & Hn); [lia|]. exists n. split; [exact En|lia]. }
    inversion Hr as [|? ? He Ht]; subst. destruct (Hrun t (xnum e) 1 Ht ltac:(lia)) as (n & En & Hn). rewrite En. cbn [rbind].
    assert (Hlen : (List.length (skipn (N.to_nat n) (e :: t)) <= f)%nat) by (rewrite skipn_length; cbn [List.length] in *; lia).
    destruct (IH (skipn (N.to_nat n) (e :: t)) Hlen) as (txt & Etxt).
    - rewrite <- (firstn_skipn (N.to_nat n) (e :: t)) in Hr. apply Forall_app in Hr. apply Hr.
    - rewrite <- (firstn_skipn (N.to_nat n) (e :: t)) in Hs. apply xsorted_app in Hs. apply Hs.
    - rewrite Etxt. eexists. reflexivity. }
  unfold write_xref_table. destruct (Hsub (List.length (map fst l2)) (map fst l2) (le_n _)) as (txt & Etxt).
  - rewrite Forall_forall. intros e He. apply in_map_iff in He. destruct He as (p & <- & Hp).
    assert (Hi : In (xnum (fst p)) (map (fun p => xnum (fst p)) l)) by (rewrite <- Hnums; apply (in_map (fun p : xentry * obj => xnum (fst p))), Hp).
    apply in_map_iff in Hi. destruct Hi as (q & <- & Hq). rewrite Forall_forall in Hl. destruct (Hl q Hq) as ((B & _) & _). exact B.
  - apply sorted_nums. rewrite Hnums. exact Hs.
  - rewrite Etxt. cbn [rbind]. eexists. reflexivity.
Qed.

(** A section that is a cross-reference stream: every object except the stream itself begins where its entry says. *)
Definition placed_self (self : option (N * N)) (file : bytes) (a b : xentry * obj) : Prop :=
  xnum (fst b) = xnum (fst a) /\ xgen (fst b) = xgen (fst a) /\ snd b = snd a /\
  if is_self self (fst a) then fst b = fst a
  else match xdata (fst a) with
       | KUsed _ true => exists p, xdata (fst b) = KUsed (Z.of_N p) true /\
           starts_at file (Z.of_N p) (write_object (xnum (fst a)) (xgen (fst a)) (snd a))
       | _ => fst b = fst a
       end.
Lemma write_objects_self : forall self l pos before after, N.of_nat (List.length before) = pos ->
  Forall2 (placed_self self (before ++ fst (write_objects self pos l) ++ after)) l (snd (write_objects self pos l)).
Proof.
  intros self. induction l as [|[e o] l IH]; intros pos before after Hp; [constructor|].
  assert (Hskip := IH pos before after Hp).
  set (ob := write_object (xnum e) (xgen e) o).
  assert (Hemit := IH (pos + N.of_nat (List.length ob)) (before ++ ob) after ltac:(rewrite app_length; lia)). clear IH.
  cbn [write_objects]. fold ob.
  destruct (write_objects self pos l) as [txt1 t1]. destruct (write_objects self (pos + N.of_nat (List.length ob)) l) as [txt2 t2]. cbn [fst snd] in *.
  rewrite <- app_assoc in Hemit.
  destruct (is_self self e) eqn:Es.
  { cbn [fst snd]. constructor; [|exact Hskip]. unfold placed_self. cbn [fst snd]. rewrite Es. auto. }
  destruct (xdata e) as [next|offset u|sn si] eqn:Ed.
  - cbn [fst snd]. constructor; [|exact Hskip]. unfold placed_self. cbn [fst snd]. rewrite Es, Ed. auto.
  - destruct u; cbn [fst snd].
    + rewrite <- app_assoc. constructor; [|exact Hemit].
      unfold placed_self. cbn [fst snd]. rewrite Es, Ed. cbn [xnum xgen xdata]. repeat split. exists pos. split; [reflexivity|]. split; [lia|].
      exists before, (txt2 ++ after). fold ob. split; [reflexivity|lia].
    + constructor; [|exact Hskip]. unfold placed_self. cbn [fst snd]. rewrite Es, Ed. auto.
  - cbn [fst snd]. rewrite <- app_assoc. constructor; [|exact Hemit]. unfold placed_self. cbn [fst snd]. rewrite Es, Ed. auto.
Qed.
Lemma recalculate_lengths_entries : forall l l1, recalculate_lengths l = Ok l1 -> map fst l1 = map fst l.
Proof.
  induction l as [|[e o] l IH]; intros l1 H; cbn [recalculate_lengths] in H; [inversion H; reflexivity|].
  apply rbind_ok in H. destruct H as (o' & _ & H). apply rbind_ok in H. destruct H as (t' & Ht & H). inversion H; subst. cbn [map fst]. rewrite (IH _ Ht). reflexivity.
Qed.
Lemma in_fst : forall (l : list (xentry * obj)) e, In e (map fst l) -> exists o, In (e, o) l.
Proof. intros l e H. apply in_map_iff in H. destruct H as ([x o] & <- & H). exists o. exact H. Qed.
Theorem C21_stream_section_partial : forall v self stm l file l2 e o, write_stream_file v self stm l = Ok (file, l2) ->
  In (e, o) l -> used_in_use e -> (xnum e, xgen e) <> self ->
  exists offset o', In ({| xnum := xnum e; xgen := xgen e; xdata := KUsed offset true |}, o') l2 /\
    starts_at file offset (object_heading (xnum e) (xgen e)).
Proof.
  intros v self stm l file l2 e o H Hin Hu Hne. unfold write_stream_file in H. apply rbind_ok in H. destruct H as (l1 & E1 & H).
  destruct (write_objects (Some self) _ l1) as [body l2'] eqn:Ew.
  apply rbind_ok in H. destruct H as (w & _ & H). apply rbind_ok in H. destruct H as ([[w' index] data] & _ & H).
  apply rbind_ok in H. destruct H as (st & _ & H). apply Ok_inj in H.
  assert (Ef := f_equal fst H). assert (El := f_equal snd H). cbn [fst snd] in Ef, El. subst l2'. clear H.
  set (after := write_object (fst self) (snd self) st ++ write_xref_offset (Z.of_nat (List.length (write_header v ++ body)))) in *.
  assert (Ho := write_objects_self (Some self) l1 (N.of_nat (List.length (write_header v))) (write_header v) after eq_refl).
  rewrite Ew in Ho. cbn [fst snd] in Ho. rewrite Ef in Ho.
  assert (Hin1 : In e (map fst l1)) by (rewrite (recalculate_lengths_entries _ _ E1); apply (in_map fst) in Hin; exact Hin).
  apply in_fst in Hin1. destruct Hin1 as (o1 & Hin1).
  destruct (Forall2_In _ _ _ _ _ _ Ho Hin1) as ([e2 o2] & Hin2 & (P1 & P2 & P3 & P4)). cbn [fst snd] in *.
  assert (Es : is_self (Some self) e = false).
  { destruct self as [sn sg]. cbn [is_self]. destruct (xnum e =? sn) eqn:A; [|reflexivity]. destruct (xgen e =? sg) eqn:B; [|reflexivity].
    exfalso. apply Hne. f_equal; lia. }
  rewrite Es in P4. unfold used_in_use in Hu. destruct (xdata e) as [|off u|]; [destruct Hu| |destruct Hu]. destruct u; [|destruct Hu].
  destruct P4 as (p & P5 & _ & before & aft & Eb & Hb). exists (Z.of_N p), o2. split.
  - destruct e2 as [n2 g2 d2]. cbn [xnum xgen xdata] in *. subst. exact Hin2.
  - split; [lia|]. unfold write_object in Eb. exists before, (to_pdf o1 ++ [10] ++ str "endobj" ++ [10] ++ aft). split; [|exact Hb].
    rewrite Eb. unfold object_heading. rewrite <- !app_assoc. reflexivity.
Qed.
(** The stream's own entry keeps whatever offset it had before. *)
Theorem C21_stream_own_entry_stale : forall v self stm l file l2 e o, write_stream_file v self stm l = Ok (file, l2) ->
  In (e, o) l -> (xnum e, xgen e) = self -> exists o', In (e, o') l2.
Proof.
  intros v self stm l file l2 e o H Hin He. unfold write_stream_file in H. apply rbind_ok in H. destruct H as (l1 & E1 & H).
  destruct (write_objects (Some self) _ l1) as [body l2'] eqn:Ew.
  apply rbind_ok in H. destruct H as (w & _ & H). apply rbind_ok in H. destruct H as ([[w' index] data] & _ & H).
  apply rbind_ok in H. destruct H as (st & _ & H). apply Ok_inj in H. assert (El := f_equal snd H). cbn [fst snd] in El. subst l2'. clear H.
  assert (Ho := write_objects_self (Some self) l1 (N.of_nat (List.length (write_header v))) (write_header v) [] eq_refl).
  rewrite Ew in Ho. cbn [fst snd] in Ho.
  assert (Hin1 : In e (map fst l1)) by (rewrite (recalculate_lengths_entries _ _ E1); apply (in_map fst) in Hin; exact Hin).
  apply in_fst in Hin1. destruct Hin1 as (o1 & Hin1).
  destruct (Forall2_In _ _ _ _ _ _ Ho Hin1) as ([e2 o2] & Hin2 & (P1 & P2 & P3 & P4)). cbn [fst snd] in *.
  assert (Es : is_self (Some self) e = true). { subst self. cbn [is_self]. rewrite !N.eqb_refl. reflexivity. }
  rewrite Es in P4. subst e2. exists o2. exact Hin2.
Qed.
Definition xref_stream_object (w : widths) (index : list N) (data : bytes) : obj :=
  OStream [(str "Index", OArr (map (fun n => OInt (Z.of_N n)) index)); (str "Type", OName (str "XRef"))] data.
Definition stream_document : list (xentry * obj) :=
  [ ({| xnum := 0; xgen := 65535; xdata := KFree 0 |}, ONull);
    ({| xnum := 1; xgen := 0; xdata := KUsed 999 true |}, ODict [(str "Type", OName (str "Catalog"))]);
    ({| xnum := 2; xgen := 0; xdata := KUsed 20 true |}, ONull) ].
Theorem C21_stream_own_offset_refuted : exists file l2 o, write_stream_file PDF15 (2, 0) xref_stream_object stream_document = Ok (file, l2) /\
  In ({| xnum := 2; xgen := 0; xdata := KUsed 20 true |}, o) l2 /\ ~ starts_at file 20 (object_heading 2 0) /\
  starts_at file 49 (object_heading 2 0).
Proof.
  do 3 eexists. split; [vm_compute; reflexivity|]. split; [cbn; right; right; left; reflexivity|]. split.
  - intros (_ & before & after & E & Hb). apply (f_equal (skipn (List.length before))) in E. rewrite skipn_exact in E.
    replace (List.length before) with 20%nat in E by lia. vm_compute in E. discriminate.
  - split; [lia|]. 
    match goal with |- exists b a, ?f = _ /\ _ => exists (firstn 49 f), (skipn (49 + 8) f) end. split; vm_compute; reflexivity.
Qed.

Definition C21_document : list (xentry * obj) :=
  [ ({| xnum := 0; xgen := 65535; xdata := KFree 0 |}, ONull);
    ({| xnum := 3; xgen := 0; xdata := KUsed (-1) true |}, ODict [(str "Pages", ORef 4 1); (str "Type", OName (str "Catalog"))]);
    ({| xnum := 4; xgen := 1; xdata := KUsed 77 true |}, OStream [(str "Length", OInt 9)] (str "endstream endobj")) ].
Definition C21_trailer : list (bytes * obj) := [(str "Root", ORef 3 0)].
Example C21_case : StronglySorted N.lt (map (fun p => xnum (fst p)) C21_document) /\
  Forall (fun p => entry_saveable (fst p) /\ (used_in_use (fst p) -> storable (snd p))) C21_document /\
  writable (ODict C21_trailer) /\ sm_find (str "Prev") C21_trailer = None /\ sm_find (str "XRefStm") C21_trailer = None /\
  exists file, write_table_file PDF14 C21_document C21_trailer = Ok file /\ List.length file = 251%nat.
Proof.
  split; [cbn; repeat constructor; lia|]. split.
  { apply Forall_cons; [|apply Forall_cons; [|apply Forall_cons; [|apply Forall_nil]]]; (split; [unfold entry_saveable; cbn [fst xnum xgen xdata]; repeat split; lia|]); cbn [fst snd].
    - intros [].
    - intros _. apply st_direct. apply w_dict.
      + repeat (constructor; cbn; try (apply kl_less; cbn; lia)).
      + repeat constructor; cbn; try discriminate; unfold is_byte; lia.
      + cbn. repeat (constructor; cbn; unfold is_byte; try lia).
    - intros _. apply st_stream.
      + apply w_dict.
        * repeat (constructor; cbn; try (apply kl_less; cbn; lia)).
        * repeat constructor; cbn; try discriminate; unfold is_byte; lia.
        * cbn. repeat (constructor; cbn; unfold is_byte; try lia).
      + intros v [E|[]]. inversion E; subst. exists 9%Z. split; [reflexivity|lia].
      + reflexivity. }
  split; [apply w_dict|].
  - repeat (constructor; cbn; try (apply kl_less; cbn; lia)).
  - repeat constructor; cbn; try discriminate; unfold is_byte; lia.
  - cbn. repeat (constructor; cbn; unfold is_byte; try lia).
  - split; [reflexivity|]. split; [reflexivity|]. eexists. split; vm_compute; reflexivity.
Qed.

Print Assumptions C21_written_file_reopens.
Print Assumptions C21_write_succeeds.
Print Assumptions C21_stream_section_partial.
Print Assumptions C21_stream_own_entry_stale.
Print Assumptions C21_stream_own_offset_refuted.

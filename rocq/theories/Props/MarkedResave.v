(** C101, continued: a file that follows the standard, opened and saved without a license. *)
From Coq Require Import List NArith ZArith Bool Lia String Sorted.
From Coq Require Import List.
From Verif.Model Require Import StreamFile StreamBody.
From Verif.Model Require Import Base SMap Object Equality Token Parser Xref Header FileWrite Chain Merge Unreferenced Duplicates Update Rebuild Conforming Save StandardSave MarkedResave.
From Verif.Spec Require Import StreamFile.
From Verif.Spec Require Import Strings Grammar Xref FileWrite Chain Merge Unreferenced Duplicates Update Conforming Written Save StandardSave.
From Verif.Spec Require Watermark MarkedSave.
From Verif.Spec Require Import MarkedResave.
From Verif.Proof Require Import Tac Strings StreamObj SMap FileWrite Update Conforming Written Unreferenced Save StandardSave MarkedResave.
From Verif.Spec Require StreamBody.
From Verif.Proof Require MarkedSave.
From Verif.Props Require Duplicates Save StandardSave StreamFile WrittenStream MarkedSave.
Local Notation opened revs := (map Conforming.table_of revs).
Import ListNotations.
Local Open Scope N_scope.

(** For every file with cross-reference tables that follows the standard, whoever wrote it: the file that is saved without a license is, by
    the standard's reading, the marked file of a document whose Root, Info and ID look at any depth as those of the source.  Missing:
    what C96_resaved_partial and C101_saved_partial leave out, and filters that are other objects. *)
Theorem C101_resaved_partial : forall real hash order arrange opening text image supported decode encode fuel depth file v r older f kids file',
  any_order order -> any_arrangement arrange -> codec supported encode decode ->
  conforming file v (r :: older) -> (List.length (r :: older) <= fuel)%nat ->
  N.of_nat (S (S (List.length (flat_map r_rows (r :: older))))) < 2 ^ 63 -> writable (ODict (r_trailer r)) ->
  shows file (r :: older) f (r_trailer r) -> sound_document real hash f (ODict (r_trailer r)) ->
  (forall n g m data, live f (ODict (r_trailer r)) n g -> f n g = OStream m data -> supported m /\ own_filters m) ->
  Watermark.root_kids f (r_trailer r) kids ->
  resave_marked real hash order arrange opening text image decode encode fuel depth file = Ok file' -> (Z.of_nat (List.length file') <= 10 ^ 10)%Z ->
  exists items trailer kids', same_entries real f (MarkedSave.object_of items) (r_trailer r) trailer /\
    Watermark.root_kids (MarkedSave.object_of items) trailer kids' /\ marked_file real text image decode file' v items trailer kids'.
Proof.
  intros real hash order arrange opening text image supported decode encode fuel depth file v r older f kids file' Hord Harr Hcd Hc Hf Hcnt Htw Hsh Hsd Hsup Hkids Hre Hlen.
  unfold resave_marked in Hre. rewrite (opened_tables opening file v _ [] fuel Hc Hf) in Hre. cbn [rbind] in Hre. apply rbind_ok in Hre. destruct Hre as (u & _ & Hre).
  destruct (opened_orderly real hash file v (r :: older) f (r_trailer r) Hc Hsh Hsd) as (Hod & HF & HL).
  set (c := opened (r :: older)) in *. set (content := content_of file c) in *.
  assert (Hpl := opened_plain _ _ _ Hc). fold c in Hpl. assert (Hcount := opened_count (r :: older)). fold c in Hcount.
  assert (Hxs := no_xrefstm _ _ _ _ Hc Htw). apply rbind_ok in Hre. destruct Hre as ([items T5] & Hopt & Hwrite).
  destruct (optimized_all real hash content order arrange (Conforming.table_of r) (opened older) items T5 Hord Harr Hpl ltac:(change (Conforming.table_of r :: opened older) with c; lia) Htw Hxs Hod Hopt)
    as ((Hl5 & Hshape) & Hs5 & Hsave5 & Tw5 & Hprev & Hxstm & Hlen5 & Hn5 & Hpl5 & T1 & Tw & Hheld & Tnone & Tkeep).
  change (Conforming.table_of r :: opened older) with c in Hl5, Hshape, Hheld. cbn [Conforming.table_of s_trailer] in Hshape.
  assert (Eo := object_held items Hpl5).
  assert (Hall : forall k, resembles real (document_objects content c) (MarkedSave.object_of items) k (ODict T1) (ODict T5)).
  { intros k. apply resembles_trans with (f' := held items) (b := ODict T5); [apply Hheld|]. apply same_store; [|intros; symmetry; apply Eo..]. intros n g n' g'. rewrite Eo. apply held_no_reference, Hn5. }
  assert (Hsame : same_entries real f (MarkedSave.object_of items) (r_trailer r) T5).
  { destruct (writable_parts _ Tw) as (Tsort & Tkeys & _). destruct (writable_parts _ Tw5) as (S5 & K5 & _).
    intros key Hkey. assert (Hb : all_bytes key) by (destruct Hkey as [<-|[<-|[<-|[]]]]; apply str_bytes).
    assert (Hk1 : key <> str "Size" /\ key <> str "Prev" /\ In key trailer_keys).
    { destruct Hkey as [<-|[<-|[<-|[]]]]; (split; [discriminate|]); (split; [discriminate|]); vm_compute; tauto. }
    destruct Hk1 as (Hk1 & Hk2 & Hk3).
    assert (E1 : sm_find key T1 = sm_find key (r_trailer r)) by (apply Tkeep; assumption).
    rewrite <- E1. destruct (sm_find key T1) as [a|] eqn:Ea.
    - assert (Ea' := E1). symmetry in Ea'. apply in_find in Ea'; [|exact Htw|exact Hb]. apply sm_find_in in Ea; [|assumption..].
      assert (Hb5 : forall k, exists b, sm_find key T5 = Some b /\ resembles real (document_objects content c) (MarkedSave.object_of items) k a b).
      { intros k. assert (A := Hall (Datatypes.S k)). cbn [resembles seen_at] in A. inversion A as [| | |? ? v0 T0 _|? ? N0 _ _| |? ? (D1 & _)|]; subst; [discriminate T0|destruct N0|]. destruct (D1 key a Ea ltac:(intros [])) as (b & Hin & R). exists b. split; [apply sm_find_in; assumption|exact R]. }
      destruct (Hb5 O) as (b & Eb & _). rewrite Eb. intros k. destruct (Hb5 k) as (b' & Eb' & R). rewrite Eb in Eb'. injection Eb' as <-.
      apply (live_resembles real f (document_objects content c) (MarkedSave.object_of items) (ODict (r_trailer r)) HF); [|intros n g L; apply (sd_stored _ _ _ _ Hsd n g L)|exact R].
      intros n g Hm. apply live_trailer. eapply Unreferenced.m_dict; eassumption.
    - rewrite (Tnone key Hb Ea). exact I. }
  assert (Hstore : forall n g, storable (MarkedSave.object_of items n g)) by (intros n g; rewrite Eo; apply held_storable; assumption).
  destruct (kids_same real f (MarkedSave.object_of items) (r_trailer r) T5 kids Htw ltac:(intros n g L; apply (sd_stored _ _ _ _ Hsd n g L)) Tw5 Hstore Hsame Hkids) as (kids' & Hkids').
  exists items, T5, kids'. split; [exact Hsame|]. split; [exact Hkids'|].
  apply (MarkedSave.C101_saved_partial supported encode decode real text image depth v items T5 kids' file'); try assumption.
  - split; [|split; [|split; [exact Tw5|split; [apply not_in_find; [exact Tw5|apply str_bytes|exact Hxstm]|exact Hlen5]]]]; cbn [fst snd]; [exact Hs5|].
    rewrite Forall_forall in Hsave5 |- *. intros p Hp. destruct (Hsave5 p Hp) as (A & B). split; [exact A|]. intros off E. apply B. unfold used_in_use. rewrite E. exact I.
  - intros e o next Hin E. destruct (Hpl5 e o Hin) as [E'|(off & E')]; rewrite E' in E; [|discriminate]. injection E as <-. reflexivity.
  - intros x. apply not_in_find; [exact Tw5|apply str_bytes|exact Hprev].
  - lia.
  - intros e off m data Hin Hd. destruct (Hshape e _ Hin ltac:(unfold entry_in_use; rewrite Hd; reflexivity)) as (n & g & L & R). apply HL in L. rewrite (HF n g L) in R. destruct (reshaped_filters _ _ _ R) as (m0 & E0 & Hsf).
    destruct (Hsup n g m0 data L E0) as (S0 & O0). exact (cd_same _ _ _ Hcd m0 m (Hsf O0) S0).
Qed.

(** A document without a page tree is saved as with a license. *)
Lemma optimized_looks : forall real hash order arrange file v r older f items T5,
  any_order order -> any_arrangement arrange -> conforming file v (r :: older) ->
  N.of_nat (S (List.length (flat_map r_rows (r :: older)))) < 2 ^ 63 -> writable (ODict (r_trailer r)) ->
  shows file (r :: older) f (r_trailer r) -> sound_document real hash f (ODict (r_trailer r)) ->
  optimize real hash (content_of file (opened (r :: older))) order arrange (opened (r :: older)) = Ok (items, T5) ->
  same_entries real f (MarkedSave.object_of items) (r_trailer r) T5 /\ writable (ODict T5) /\ forall n g, storable (MarkedSave.object_of items n g).
Proof.
  intros real hash order arrange file v r older f items T5 Hord Harr Hc Hcnt Htw Hsh Hsd Hopt.
  destruct (opened_orderly real hash file v (r :: older) f (r_trailer r) Hc Hsh Hsd) as (Hod & HF & HL).
  set (c := opened (r :: older)) in *. set (content := content_of file c) in *.
  assert (Hpl := opened_plain _ _ _ Hc). fold c in Hpl. assert (Hcount := opened_count (r :: older)). fold c in Hcount.
  assert (Hxs := no_xrefstm _ _ _ _ Hc Htw).
  destruct (optimized_all real hash content order arrange (Conforming.table_of r) (opened older) items T5 Hord Harr Hpl ltac:(change (Conforming.table_of r :: opened older) with c; lia) Htw Hxs Hod Hopt)
    as ((Hl5 & Hshape) & Hs5 & Hsave5 & Tw5 & Hprev & Hxstm & Hlen5 & Hn5 & Hpl5 & T1 & Tw & Hheld & Tnone & Tkeep).
  change (Conforming.table_of r :: opened older) with c in Hl5, Hshape, Hheld.
  assert (Eo := object_held items Hpl5).
  assert (Hall : forall k, resembles real (document_objects content c) (MarkedSave.object_of items) k (ODict T1) (ODict T5)).
  { intros k. apply resembles_trans with (f' := held items) (b := ODict T5); [apply Hheld|]. apply same_store; [|intros; symmetry; apply Eo..]. intros n g n' g'. rewrite Eo. apply held_no_reference, Hn5. }
  assert (Hsame : same_entries real f (MarkedSave.object_of items) (r_trailer r) T5).
  { destruct (writable_parts _ Tw) as (Tsort & Tkeys & _). destruct (writable_parts _ Tw5) as (S5 & K5 & _).
    intros key Hkey. assert (Hb : all_bytes key) by (destruct Hkey as [<-|[<-|[<-|[]]]]; apply str_bytes).
    assert (Hk1 : key <> str "Size" /\ key <> str "Prev" /\ In key trailer_keys).
    { destruct Hkey as [<-|[<-|[<-|[]]]]; (split; [discriminate|]); (split; [discriminate|]); vm_compute; tauto. }
    destruct Hk1 as (Hk1 & Hk2 & Hk3).
    assert (E1 : sm_find key T1 = sm_find key (r_trailer r)) by (apply Tkeep; assumption).
    rewrite <- E1. destruct (sm_find key T1) as [a|] eqn:Ea.
    - assert (Ea' := E1). symmetry in Ea'. apply in_find in Ea'; [|exact Htw|exact Hb]. apply sm_find_in in Ea; [|assumption..].
      assert (Hb5 : forall k, exists b, sm_find key T5 = Some b /\ resembles real (document_objects content c) (MarkedSave.object_of items) k a b).
      { intros k. assert (A := Hall (Datatypes.S k)). cbn [resembles seen_at] in A. inversion A as [| | |? ? v0 T0 _|? ? N0 _ _| |? ? (D1 & _)|]; subst; [discriminate T0|destruct N0|]. destruct (D1 key a Ea ltac:(intros [])) as (b & Hin & R). exists b. split; [apply sm_find_in; assumption|exact R]. }
      destruct (Hb5 O) as (b & Eb & _). rewrite Eb. intros k. destruct (Hb5 k) as (b' & Eb' & R). rewrite Eb in Eb'. injection Eb' as <-.
      apply (live_resembles real f (document_objects content c) (MarkedSave.object_of items) (ODict (r_trailer r)) HF); [|intros n g L; apply (sd_stored _ _ _ _ Hsd n g L)|exact R].
      intros n g Hm. apply live_trailer. eapply Unreferenced.m_dict; eassumption.
    - rewrite (Tnone key Hb Ea). exact I. }
  split; [exact Hsame|]. split; [exact Tw5|]. intros n g. rewrite Eo. apply held_storable; assumption.
Qed.
Theorem C101_resaved_pageless_partial : forall real hash order arrange opening text image decode encode fuel depth file v r older f,
  any_order order -> any_arrangement arrange ->
  conforming file v (r :: older) -> (List.length (r :: older) <= fuel)%nat ->
  N.of_nat (S (List.length (flat_map r_rows (r :: older)))) < 2 ^ 63 -> writable (ODict (r_trailer r)) ->
  shows file (r :: older) f (r_trailer r) -> sound_document real hash f (ODict (r_trailer r)) ->
  MarkedSave.pageless f (r_trailer r) ->
  resave_marked real hash order arrange opening text image decode encode fuel depth file = resave real hash order arrange opening fuel file.
Proof.
  intros real hash order arrange opening text image decode encode fuel depth file v r older f Hord Harr Hc Hf Hcnt Htw Hsh Hsd Hpg.
  unfold resave_marked, resave, save_file. rewrite (opened_tables opening file v _ [] fuel Hc Hf). cbn [rbind].
  destruct (clone_sections file _ _); cbn [rbind]; [|reflexivity..].
  destruct (optimize real hash _ order arrange _) as [[items T5]| | |] eqn:Hopt; cbn [rbind]; [|reflexivity..].
  destruct (optimized_looks _ _ _ _ _ _ _ _ _ _ _ Hord Harr Hc Hcnt Htw Hsh Hsd Hopt) as (Hsame & Tw5 & Hst).
  assert (Hpg' : MarkedSave.pageless (MarkedSave.object_of items) T5) by (exact (pageless_same real f (MarkedSave.object_of items) (r_trailer r) T5 Htw (fun n g L => proj1 (sd_stored _ _ _ _ Hsd n g L)) Tw5 Hst Hsame Hpg)).
  rewrite written_once. unfold Model.MarkedSave.write_marked.
  destruct (Verif.Proof.MarkedSave.pageless_has real text image depth (Model.MarkedSave.document_of decode items) T5 Hpg') as (-> & ->). reflexivity.
Qed.

(** A document whose catalog or page tree is no dictionary is not saved without a license, although it is with one. *)
Theorem C101_resaved_malformed_partial : forall real hash order arrange opening text image decode encode fuel depth file v r older f,
  any_order order -> any_arrangement arrange ->
  conforming file v (r :: older) -> (List.length (r :: older) <= fuel)%nat ->
  N.of_nat (S (List.length (flat_map r_rows (r :: older)))) < 2 ^ 63 -> writable (ODict (r_trailer r)) ->
  shows file (r :: older) f (r_trailer r) -> sound_document real hash f (ODict (r_trailer r)) ->
  rows_lead_to_objects file (r :: older) -> live_reals_within_range real f (ODict (r_trailer r)) ->
  MarkedSave.malformed f (r_trailer r) ->
  (exists file', resave real hash order arrange opening fuel file = Ok file') /\ resave_marked real hash order arrange opening text image decode encode fuel depth file = Throw EConversion.
Proof.
  intros real hash order arrange opening text image decode encode fuel depth file v r older f Hord Harr Hc Hf Hcnt Htw Hsh Hsd Hrow Hreal Hm.
  assert (Hok := resave_succeeds real hash order arrange opening fuel file v r older f Hord Harr Hc Hf Hcnt Htw Hsh Hsd Hrow Hreal). split; [exact Hok|].
  destruct Hok as (file' & Hok). revert Hok.
  unfold resave_marked, resave, save_file. rewrite (opened_tables opening file v _ [] fuel Hc Hf). cbn [rbind].
  destruct (clone_sections file _ _); cbn [rbind]; [|discriminate..].
  destruct (optimize real hash _ order arrange _) as [[items T5]| | |] eqn:Hopt; cbn [rbind]; [|discriminate..]. intros _.
  destruct (optimized_looks _ _ _ _ _ _ _ _ _ _ _ Hord Harr Hc Hcnt Htw Hsh Hsd Hopt) as (Hsame & Tw5 & Hst).
  apply MarkedSave.C101_malformed. exact (malformed_same real f (MarkedSave.object_of items) (r_trailer r) T5 Htw (fun n g L => proj1 (sd_stored _ _ _ _ Hsd n g L)) Tw5 Hst Hsame Hm).
Qed.

(** A file with one page, saved without a license. *)
Definition pages_items : list (xentry * obj) :=
  [StandardSave.freed 0 65535; StandardSave.used 1 0 (ODict [(str "Pages", ORef 2 0); (str "Type", OName (str "Catalog"))]);
   StandardSave.used 2 0 (ODict [(str "Count", OInt 1); (str "Kids", OArr [ORef 4 0])]);
   StandardSave.used 4 0 (ODict [(str "Contents", ORef 6 0); (str "Type", OName (str "Page"))]);
   StandardSave.used 6 0 (OStream [(str "Length", OInt 3)] (str "q Q"))].
Definition pages_trailer : list (bytes * obj) := [(str "Root", ORef 1 0); (str "Size", OInt 7)].
Definition pages_file : bytes := Eval vm_compute in StandardSave.bytes_of (write_tables PDF14 [(pages_items, pages_trailer)]).
Definition pages_chain : chain := Eval vm_compute in StandardSave.tables_of 1 pages_file.
Definition pages_store : store := document_objects (content_of pages_file pages_chain) pages_chain.
Definition pages_live : list (N * N) := [(1, 0); (2, 0); (4, 0); (6, 0)].
Definition pages_root : list (bytes * obj) := s_trailer (hd (Save.table [] []) pages_chain).
Ltac in_list H := cbn [In fst snd] in H; try unfold pages_items in H; try unfold pages_trailer in H; try unfold pages_live in H; cbn [In fst snd] in H; repeat match type of H with _ \/ _ => destruct H as [H|H] | False => destruct H end.
Lemma pages_within : forall n g, live pages_store (ODict pages_root) n g -> In (n, g) pages_live.
Proof.
  apply Save.live_within.
  - intros n g H. apply refs_mentions in H. vm_compute in H. in_list H. assert (n = 1 /\ g = 0) as [-> ->] by (split; congruence). cbn. tauto.
  - intros m gm n g Hm H. apply refs_mentions in H. in_list Hm; apply pair_equal_spec in Hm; destruct Hm as [<- <-]; vm_compute in H; in_list H; apply pair_equal_spec in H; destruct H as [<- <-]; cbn; tauto.
Qed.
Lemma pages_source : exists revs, conforming pages_file PDF14 revs /\ List.length revs = 1%nat /\ map r_trailer revs = map s_trailer pages_chain /\
    List.length (flat_map r_rows revs) = 5%nat /\ rows_lead_to_objects pages_file revs /\
    (forall e o, newest [(pages_items, pages_trailer)] e o ->
       match xdata e with
       | KUsed _ _ => o <> ONull -> stands_for pages_file revs (xnum e) (xgen e) (pages_store (xnum e) (xgen e))
       | _ => forall g, stands_for pages_file revs (xnum e) g ONull
       end) /\
    forall n g, unknown [(pages_items, pages_trailer)] n -> stands_for pages_file revs n g ONull.
Proof.
  apply (StandardSave.source_case PDF14 [(pages_items, pages_trailer)] pages_file pages_chain).
  - unfold pages_items, pages_trailer. apply Forall_cons; [|apply Forall_nil]. StandardSave.saveable.
    apply st_stream; [Save.write_it| |reflexivity]. intros v Hv. in_list Hv. assert (v = OInt 3) by congruence. subst v. exists 3%Z. split; [reflexivity|lia].
  - unfold pages_items, pages_trailer. apply Forall_cons; [|apply Forall_nil]. StandardSave.linked.
  - discriminate.
  - intros s rest x E. apply (f_equal (hd ([], []))) in E. cbn [hd] in E. subst s. intros H. in_list H; discriminate H.
  - vm_compute. reflexivity.
  - vm_compute. discriminate.
  - vm_compute. reflexivity.
Qed.
Lemma pages_newest : forall n g, In (n, g) pages_live -> exists e o, newest [(pages_items, pages_trailer)] e o /\ xnum e = n /\ xgen e = g /\ xdata e = KUsed 0 true /\ o <> ONull.
Proof.
  assert (Hnew : forall e o, In (e, o) pages_items -> newest [(pages_items, pages_trailer)] e o).
  { intros e o H. exists [], (pages_items, pages_trailer), []. split; [reflexivity|]. split; [exact H|]. intros x p []. }
  intros n g H. in_list H; apply pair_equal_spec in H; destruct H as [<- <-]; match goal with |- exists e o, _ /\ xnum e = ?a /\ xgen e = ?b /\ _ => exists {| xnum := a; xgen := b; xdata := KUsed 0 true |} end; eexists;
    (split; [apply Hnew; cbn [pages_items In StandardSave.used]; solve [repeat first [left; reflexivity|right]]|]);
    (split; [reflexivity|]); (split; [reflexivity|]); (split; [reflexivity|discriminate]).
Qed.
Example C101_resaved_case : exists r older file',
  codec StreamFile.flate_only (StreamFile.encode_in_memory StreamFile.c21_deflate StreamFile.c21_inflate) (StreamFile.decode_plain StreamFile.c21_inflate) /\
  conforming pages_file PDF14 (r :: older) /\ List.length (r :: older) = 1%nat /\
  N.of_nat (S (S (List.length (flat_map r_rows (r :: older))))) < 2 ^ 63 /\ writable (ODict (r_trailer r)) /\
  shows pages_file (r :: older) pages_store (r_trailer r) /\ sound_document Save.any_real Duplicates.plain_hash pages_store (ODict (r_trailer r)) /\
  (forall n g m data, live pages_store (ODict (r_trailer r)) n g -> pages_store n g = OStream m data -> StreamFile.flate_only m /\ own_filters m) /\
  Watermark.root_kids pages_store (r_trailer r) [ORef 4 0] /\
  resave_marked Save.any_real Duplicates.plain_hash Save.by_number Save.as_listed StandardSave.no_filter (str "T") (str "I")
    (StreamFile.decode_plain StreamFile.c21_inflate) (StreamFile.encode_in_memory StreamFile.c21_deflate StreamFile.c21_inflate) 1 10 pages_file = Ok file' /\ (Z.of_nat (List.length file') <= 10 ^ 10)%Z.
Proof.
  destruct pages_source as (revs & Hc & L & Et & Ec & Hlead & Hst & Hun). destruct revs as [|r older]; [discriminate L|].
  assert (Er : r_trailer r = pages_root) by (apply (f_equal (hd [])) in Et; exact Et).
  exists r, older. eexists. split; [exact WrittenStream.c95_codec|]. split; [exact Hc|]. split; [exact L|]. split; [rewrite Ec; reflexivity|]. rewrite Er.
  split; [vm_compute; Save.write_it|]. split; [|split; [|split; [|split; [|split; [vm_compute; reflexivity|vm_compute; discriminate]]]]].
  - intros n g H. apply pages_within, pages_newest in H. destruct H as (e & o & Hn & <- & <- & Hd & Ho). apply Hst in Hn. rewrite Hd in Hn. exact (Hn Ho).
  - constructor; intros n g H; apply pages_within in H.
    + in_list H; apply pair_equal_spec in H; destruct H as [<- <-]; vm_compute; discriminate.
    + in_list H; apply pair_equal_spec in H; destruct H as [<- <-]; (split; [vm_compute|vm_compute; discriminate]); try solve [Save.write_it].
      apply st_stream; [Save.write_it| |reflexivity]. intros v Hv. cbn [In] in Hv. destruct Hv as [Hv|[]]. assert (v = OInt 3) by congruence. subst v. exists 3%Z. split; [reflexivity|lia].
    + in_list H; apply pair_equal_spec in H; destruct H as [<- <-]; try solve [left; right; vm_compute; discriminate]; try solve [left; left; vm_compute; repeat constructor].
  - intros n g m data H E. apply pages_within in H. in_list H; apply pair_equal_spec in H; destruct H as [<- <-]; vm_compute in E; try discriminate E.
    assert (Em : m = [(str "Length", OInt 3)]) by (vm_compute; congruence). subst m. split.
    + exists []. split; [apply Spec.StreamBody.fl_none; reflexivity|]. split; [intros []|left; reflexivity].
    + intros key v n g Hk Hv. destruct Hk as [<-|[<-|[]]]; vm_compute in Hv; discriminate Hv.
  - exists (ORef 1 0). eexists. exists (ORef 2 0). eexists. exists (OArr [ORef 4 0]).
    split; [vm_compute; reflexivity|]. split; [right; exists 1, 0; split; [reflexivity|vm_compute; reflexivity]|]. split; [vm_compute; reflexivity|]. split; [right; exists 2, 0; split; [reflexivity|vm_compute; reflexivity]|].
    split; [vm_compute; reflexivity|left; reflexivity].
Qed.

(** A file whose page tree has no kids. *)
Definition bare_items : list (xentry * obj) :=
  [StandardSave.freed 0 65535; StandardSave.used 1 0 (ODict [(str "Pages", ORef 2 0); (str "Type", OName (str "Catalog"))]);
   StandardSave.used 2 0 (ODict [(str "Count", OInt 0); (str "Type", OName (str "Pages"))]); StandardSave.used 4 0 (OInt 7)].
Definition bare_trailer : list (bytes * obj) := [(str "Root", ORef 1 0); (str "Size", OInt 5)].
Definition bare_file : bytes := Eval vm_compute in StandardSave.bytes_of (write_tables PDF14 [(bare_items, bare_trailer)]).
Definition bare_chain : chain := Eval vm_compute in StandardSave.tables_of 1 bare_file.
Definition bare_store : store := document_objects (content_of bare_file bare_chain) bare_chain.
Definition bare_live : list (N * N) := [(1, 0); (2, 0)].
Definition bare_root : list (bytes * obj) := s_trailer (hd (Save.table [] []) bare_chain).
Ltac in_bare H := cbn [In fst snd] in H; try unfold bare_items in H; try unfold bare_trailer in H; try unfold bare_live in H; cbn [In fst snd] in H; repeat match type of H with _ \/ _ => destruct H as [H|H] | False => destruct H end.
Lemma bare_within : forall n g, live bare_store (ODict bare_root) n g -> In (n, g) bare_live.
Proof.
  apply Save.live_within.
  - intros n g H. apply refs_mentions in H. vm_compute in H. in_bare H. assert (n = 1 /\ g = 0) as [-> ->] by (split; congruence). cbn. tauto.
  - intros m gm n g Hm H. apply refs_mentions in H. in_bare Hm; apply pair_equal_spec in Hm; destruct Hm as [<- <-]; vm_compute in H; in_bare H; apply pair_equal_spec in H; destruct H as [<- <-]; cbn; tauto.
Qed.
Lemma bare_source : exists revs, conforming bare_file PDF14 revs /\ List.length revs = 1%nat /\ map r_trailer revs = map s_trailer bare_chain /\
    List.length (flat_map r_rows revs) = 4%nat /\ rows_lead_to_objects bare_file revs /\
    (forall e o, newest [(bare_items, bare_trailer)] e o ->
       match xdata e with
       | KUsed _ _ => o <> ONull -> stands_for bare_file revs (xnum e) (xgen e) (bare_store (xnum e) (xgen e))
       | _ => forall g, stands_for bare_file revs (xnum e) g ONull
       end) /\
    forall n g, unknown [(bare_items, bare_trailer)] n -> stands_for bare_file revs n g ONull.
Proof.
  apply (StandardSave.source_case PDF14 [(bare_items, bare_trailer)] bare_file bare_chain).
  - unfold bare_items, bare_trailer. apply Forall_cons; [|apply Forall_nil]. StandardSave.saveable.
  - unfold bare_items, bare_trailer. apply Forall_cons; [|apply Forall_nil]. StandardSave.linked.
  - discriminate.
  - intros s rest x E. apply (f_equal (hd ([], []))) in E. cbn [hd] in E. subst s. intros H. in_bare H; discriminate H.
  - vm_compute. reflexivity.
  - vm_compute. discriminate.
  - vm_compute. reflexivity.
Qed.
Lemma bare_newest : forall n g, In (n, g) bare_live -> exists e o, newest [(bare_items, bare_trailer)] e o /\ xnum e = n /\ xgen e = g /\ xdata e = KUsed 0 true /\ o <> ONull.
Proof.
  assert (Hnew : forall e o, In (e, o) bare_items -> newest [(bare_items, bare_trailer)] e o).
  { intros e o H. exists [], (bare_items, bare_trailer), []. split; [reflexivity|]. split; [exact H|]. intros x p []. }
  intros n g H. in_bare H; apply pair_equal_spec in H; destruct H as [<- <-]; match goal with |- exists e o, _ /\ xnum e = ?a /\ xgen e = ?b /\ _ => exists {| xnum := a; xgen := b; xdata := KUsed 0 true |} end; eexists;
    (split; [apply Hnew; cbn [bare_items In StandardSave.used]; solve [repeat first [left; reflexivity|right]]|]);
    (split; [reflexivity|]); (split; [reflexivity|]); (split; [reflexivity|discriminate]).
Qed.
Example C101_resaved_pageless_case : exists r older,
  conforming bare_file PDF14 (r :: older) /\ List.length (r :: older) = 1%nat /\
  N.of_nat (S (List.length (flat_map r_rows (r :: older)))) < 2 ^ 63 /\ writable (ODict (r_trailer r)) /\
  shows bare_file (r :: older) bare_store (r_trailer r) /\ sound_document Save.any_real Duplicates.plain_hash bare_store (ODict (r_trailer r)) /\
  MarkedSave.pageless bare_store (r_trailer r).
Proof.
  destruct bare_source as (revs & Hc & L & Et & Ec & Hlead & Hst & Hun). destruct revs as [|r older]; [discriminate L|].
  assert (Er : r_trailer r = bare_root) by (apply (f_equal (hd [])) in Et; exact Et).
  exists r, older. split; [exact Hc|]. split; [exact L|]. split; [rewrite Ec; reflexivity|]. rewrite Er.
  split; [vm_compute; Save.write_it|]. split; [|split].
  - intros n g H. apply bare_within, bare_newest in H. destruct H as (e & o & Hn & <- & <- & Hd & Ho). apply Hst in Hn. rewrite Hd in Hn. exact (Hn Ho).
  - constructor; intros n g H; apply bare_within in H.
    + in_bare H; apply pair_equal_spec in H; destruct H as [<- <-]; vm_compute; discriminate.
    + in_bare H; apply pair_equal_spec in H; destruct H as [<- <-]; (split; [vm_compute|vm_compute; discriminate]); solve [Save.write_it].
    + in_bare H; apply pair_equal_spec in H; destruct H as [<- <-]; try solve [left; right; vm_compute; discriminate]; try solve [left; left; vm_compute; repeat constructor].
  - right. exists (ORef 1 0). eexists. split; [vm_compute; reflexivity|]. split; [right; exists 1, 0; split; [reflexivity|vm_compute; reflexivity]|]. right.
    exists (ORef 2 0). eexists. split; [vm_compute; reflexivity|]. split; [right; exists 2, 0; split; [reflexivity|vm_compute; reflexivity]|vm_compute; reflexivity].
Qed.

(** A file whose page tree is an array. *)
Definition odd_items : list (xentry * obj) :=
  [StandardSave.freed 0 65535; StandardSave.used 1 0 (ODict [(str "Pages", ORef 2 0); (str "Type", OName (str "Catalog"))]);
   StandardSave.used 2 0 (OArr [OInt 3]); StandardSave.used 4 0 (OInt 7)].
Definition odd_trailer : list (bytes * obj) := [(str "Root", ORef 1 0); (str "Size", OInt 5)].
Definition odd_file : bytes := Eval vm_compute in StandardSave.bytes_of (write_tables PDF14 [(odd_items, odd_trailer)]).
Definition odd_chain : chain := Eval vm_compute in StandardSave.tables_of 1 odd_file.
Definition odd_store : store := document_objects (content_of odd_file odd_chain) odd_chain.
Definition odd_live : list (N * N) := [(1, 0); (2, 0)].
Definition odd_root : list (bytes * obj) := s_trailer (hd (Save.table [] []) odd_chain).
Ltac in_odd H := cbn [In fst snd] in H; try unfold odd_items in H; try unfold odd_trailer in H; try unfold odd_live in H; cbn [In fst snd] in H; repeat match type of H with _ \/ _ => destruct H as [H|H] | False => destruct H end.
Lemma odd_within : forall n g, live odd_store (ODict odd_root) n g -> In (n, g) odd_live.
Proof.
  apply Save.live_within.
  - intros n g H. apply refs_mentions in H. vm_compute in H. in_odd H. assert (n = 1 /\ g = 0) as [-> ->] by (split; congruence). cbn. tauto.
  - intros m gm n g Hm H. apply refs_mentions in H. in_odd Hm; apply pair_equal_spec in Hm; destruct Hm as [<- <-]; vm_compute in H; in_odd H; apply pair_equal_spec in H; destruct H as [<- <-]; cbn; tauto.
Qed.
Lemma odd_source : exists revs, conforming odd_file PDF14 revs /\ List.length revs = 1%nat /\ map r_trailer revs = map s_trailer odd_chain /\
    List.length (flat_map r_rows revs) = 4%nat /\ rows_lead_to_objects odd_file revs /\
    (forall e o, newest [(odd_items, odd_trailer)] e o ->
       match xdata e with
       | KUsed _ _ => o <> ONull -> stands_for odd_file revs (xnum e) (xgen e) (odd_store (xnum e) (xgen e))
       | _ => forall g, stands_for odd_file revs (xnum e) g ONull
       end) /\
    forall n g, unknown [(odd_items, odd_trailer)] n -> stands_for odd_file revs n g ONull.
Proof.
  apply (StandardSave.source_case PDF14 [(odd_items, odd_trailer)] odd_file odd_chain).
  - unfold odd_items, odd_trailer. apply Forall_cons; [|apply Forall_nil]. StandardSave.saveable.
  - unfold odd_items, odd_trailer. apply Forall_cons; [|apply Forall_nil]. StandardSave.linked.
  - discriminate.
  - intros s rest x E. apply (f_equal (hd ([], []))) in E. cbn [hd] in E. subst s. intros H. in_odd H; discriminate H.
  - vm_compute. reflexivity.
  - vm_compute. discriminate.
  - vm_compute. reflexivity.
Qed.
Lemma odd_newest : forall n g, In (n, g) odd_live -> exists e o, newest [(odd_items, odd_trailer)] e o /\ xnum e = n /\ xgen e = g /\ xdata e = KUsed 0 true /\ o <> ONull.
Proof.
  assert (Hnew : forall e o, In (e, o) odd_items -> newest [(odd_items, odd_trailer)] e o).
  { intros e o H. exists [], (odd_items, odd_trailer), []. split; [reflexivity|]. split; [exact H|]. intros x p []. }
  intros n g H. in_odd H; apply pair_equal_spec in H; destruct H as [<- <-]; match goal with |- exists e o, _ /\ xnum e = ?a /\ xgen e = ?b /\ _ => exists {| xnum := a; xgen := b; xdata := KUsed 0 true |} end; eexists;
    (split; [apply Hnew; cbn [odd_items In StandardSave.used]; solve [repeat first [left; reflexivity|right]]|]);
    (split; [reflexivity|]); (split; [reflexivity|]); (split; [reflexivity|discriminate]).
Qed.
Example C101_resaved_malformed_case : exists r older,
  conforming odd_file PDF14 (r :: older) /\ List.length (r :: older) = 1%nat /\
  N.of_nat (S (List.length (flat_map r_rows (r :: older)))) < 2 ^ 63 /\ writable (ODict (r_trailer r)) /\
  shows odd_file (r :: older) odd_store (r_trailer r) /\ sound_document Save.any_real Duplicates.plain_hash odd_store (ODict (r_trailer r)) /\
  rows_lead_to_objects odd_file (r :: older) /\ live_reals_within_range Save.any_real odd_store (ODict (r_trailer r)) /\
  MarkedSave.malformed odd_store (r_trailer r).
Proof.
  destruct odd_source as (revs & Hc & L & Et & Ec & Hlead & Hst & Hun). destruct revs as [|r older]; [discriminate L|].
  assert (Er : r_trailer r = odd_root) by (apply (f_equal (hd [])) in Et; exact Et).
  exists r, older. split; [exact Hc|]. split; [exact L|]. split; [rewrite Ec; reflexivity|]. rewrite Er.
  split; [vm_compute; Save.write_it|]. split; [|split; [|split; [|split]]].
  - intros n g H. apply odd_within, odd_newest in H. destruct H as (e & o & Hn & <- & <- & Hd & Ho). apply Hst in Hn. rewrite Hd in Hn. exact (Hn Ho).
  - constructor; intros n g H; apply odd_within in H.
    + in_odd H; apply pair_equal_spec in H; destruct H as [<- <-]; vm_compute; discriminate.
    + in_odd H; apply pair_equal_spec in H; destruct H as [<- <-]; (split; [vm_compute|vm_compute; discriminate]); solve [Save.write_it].
    + in_odd H; apply pair_equal_spec in H; destruct H as [<- <-]; try solve [left; right; vm_compute; discriminate]; try solve [left; left; vm_compute; repeat constructor].
  - exact Hlead.
  - intros n g neg m p H Hr. apply odd_within in H. in_odd H; apply pair_equal_spec in H; destruct H as [<- <-]; apply Save.reals_inside in Hr; vm_compute in Hr; destruct Hr.
  - exists (ORef 1 0). split; [vm_compute; reflexivity|]. right. eexists. exists (ORef 2 0). split; [right; exists 1, 0; split; [reflexivity|vm_compute; reflexivity]|]. split; [vm_compute; reflexivity|].
    intros m [E|(n & g & E & E2)]; [discriminate E|]. injection E as <- <-. vm_compute in E2. discriminate E2.
Qed.

Print Assumptions C101_resaved_partial.
Print Assumptions C101_resaved_pageless_partial.
Print Assumptions C101_resaved_malformed_partial.

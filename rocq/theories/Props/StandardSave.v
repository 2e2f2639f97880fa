(** C96: a file that follows the standard, opened and saved, follows the standard and shows the same document. *)
From Coq Require Import List NArith ZArith Bool Lia String Sorted Permutation.
From Coq Require Import List.
From Verif.Model Require Import Base SMap Object Equality Token Parser Xref Header FileWrite Chain Merge Unreferenced Duplicates Update Rebuild Conforming Save StandardSave.
From Verif.Spec Require Import Strings Grammar Xref FileWrite Chain Merge Unreferenced Duplicates Update Conforming Written Save StandardSave.
From Verif.Proof Require Import Tac Strings SMap FileWrite Update Conforming Written Unreferenced Save StandardSave.
From Verif.Props Require Duplicates Save.
Import ListNotations.
Local Open Scope N_scope.

(** For every file with cross-reference tables that follows the standard, whoever wrote it and however often it was updated, and whatever
    was deleted or is out of use: the file that the save writes follows the standard, has the version of the source, and its Root, Info and
    ID look at any depth as those of the source.  On both sides the standard says what the references stand for.  Missing: documents with
    references to null, see below, and streams whose length is another object. *)
Theorem C96_resaved_partial : forall real hash order arrange decode fuel file v r older f file',
  any_order order -> any_arrangement arrange ->
  conforming file v (r :: older) -> (List.length (r :: older) <= fuel)%nat ->
  N.of_nat (S (List.length (flat_map r_rows (r :: older)))) < 2 ^ 63 -> writable (ODict (r_trailer r)) ->
  shows file (r :: older) f (r_trailer r) -> sound_document real hash f (ODict (r_trailer r)) ->
  resave real hash order arrange decode fuel file = Ok file' -> (Z.of_nat (List.length file') <= 10 ^ 10)%Z ->
  exists r' f', conforming file' v [r'] /\ (forall n g, stands_for file' [r'] n g (f' n g)) /\
    same_entries real f f' (r_trailer r) (r_trailer r').
Proof. exact resaved. Qed.

(** ... and there is such a file, when all rows lead to objects. *)
Theorem C96_resave_succeeds_partial : forall real hash order arrange decode fuel file v r older f,
  any_order order -> any_arrangement arrange ->
  conforming file v (r :: older) -> (List.length (r :: older) <= fuel)%nat ->
  N.of_nat (S (List.length (flat_map r_rows (r :: older)))) < 2 ^ 63 -> writable (ODict (r_trailer r)) ->
  shows file (r :: older) f (r_trailer r) -> sound_document real hash f (ODict (r_trailer r)) ->
  rows_lead_to_objects file (r :: older) -> live_reals_within_range real f (ODict (r_trailer r)) ->
  exists file', resave real hash order arrange decode fuel file = Ok file'.
Proof. exact resave_succeeds. Qed.

(** ** Concrete files *)
Definition no_filter (_ : list (bytes * obj)) (_ : bytes) : res bytes := Throw EGeneral.
(** what C93 says about a file and the tables that are read from it *)
Lemma source_case : forall v c file C, Forall section_saveable c -> Forall short_links c -> c <> [] ->
  (forall s rest x, c = s :: rest -> ~ In (str "Prev", x) (snd s)) ->
  write_tables v c = Ok file -> (Z.of_nat (List.length file) <= 10 ^ 10)%Z ->
  initialize parser_dictionary no_filter (List.length c) [] file = Ok (v, ByTable C) ->
  exists revs, conforming file v revs /\ List.length revs = List.length c /\ map r_trailer revs = map s_trailer C /\
    List.length (flat_map r_rows revs) = List.length (flat_map fst (rev c)) /\ rows_lead_to_objects file revs /\
    (forall e o, newest c e o ->
       match xdata e with
       | KUsed _ _ => o <> ONull -> stands_for file revs (xnum e) (xgen e) (document_objects (content_of file C) C (xnum e) (xgen e))
       | _ => forall g, stands_for file revs (xnum e) g ONull
       end) /\
    forall n g, unknown c n -> stands_for file revs n g ONull.
Proof.
  intros v c file C Hs Hk Hne Hp Hw Hlen Hi. assert (Hw' := Hw). unfold write_tables in Hw.
  destruct (append_sections_grow _ _ _ _ Hw) as (more & Em).
  destruct (chain_conforms c (write_header v) None file []) as (revs & off & C1 & C2 & C3 & C4); [split; [reflexivity|exact Hp]|assumption..|].
  specialize (C1 []). rewrite !app_nil_r in C1.
  assert (Hc : conforming file v revs).
  { apply (conforming_from file v off revs C1 C2 C4); [|exact Hlen]. exists [10], ([37; 222; 173; 192; 222] ++ [10] ++ more). split; [left; reflexivity|].
    rewrite Em. unfold write_header. rewrite <- !app_assoc. destruct v; reflexivity. }
  assert (F : Forall2 (written file) (rev revs) c).
  { clear - C3. induction C3 as [|r s lr ls [H _] F IH]; constructor; [|assumption]. specialize (H []). rewrite app_nil_r in H. exact H. }
  assert (L : List.length revs = List.length c) by (rewrite <- rev_length; exact (pairs_length _ _ _ _ _ F)).
  rewrite (opened_tables no_filter file v revs [] (List.length c) Hc ltac:(lia)) in Hi. assert (EC : C = map Conforming.table_of revs) by congruence. subst C. clear Hi.
  exists revs. split; [exact Hc|]. split; [exact L|]. split; [rewrite map_map; reflexivity|]. destruct (conforming_rows _ _ _ Hc) as [Ho _].
  split; [|split; [|split]].
  - rewrite <- (rev_involutive revs). clear - F. induction F as [|r s l l' [E _] F IH]; [reflexivity|]. cbn [rev]. rewrite !flat_map_app, !app_length, IH. f_equal. cbn [flat_map].
    rewrite !app_nil_r. rewrite <- (map_length fst (r_rows r)), E. apply map_length.
  - intros s n offset g Hin Hrow. rewrite Forall_forall in Ho. assert (Hos := Ho s Hin). apply in_rev in Hin.
    assert (W : exists sec, written file s sec) by (clear - F Hin; induction F as [|x y l l' H F IH]; [destruct Hin|destruct Hin as [<-|Hin]; [exists y; exact H|exact (IH Hin)]]).
    destruct W as (sec & W1 & W2). assert (Hn : In n (map fst (r_rows s))) by (apply in_map_iff; exists (n, InUse offset g); auto).
    rewrite W1 in Hn. apply in_map_iff in Hn. destruct Hn as ([e o] & En & He). cbn [fst] in En. assert (H := W2 e o He). subst n.
    assert (F1 := proj1 (table_find (xnum e) s Hos) _ Hrow).
    destruct (xdata e) as [next|z u|a b]; [exfalso; assert (F2 := proj1 (table_find (xnum e) s Hos) _ H); rewrite F1 in F2; discriminate F2| |exfalso; assert (F2 := proj1 (table_find (xnum e) s Hos) _ H); rewrite F1 in F2; discriminate F2].
    destruct H as (pos & o' & H1 & H2 & _). assert (F2 := proj1 (table_find (xnum e) s Hos) _ H1). rewrite F1 in F2. cbn [entry] in F2.
    assert (E1 : g = xgen e) by congruence. assert (E2 : Z.of_N offset = Z.of_N pos) by congruence. assert (E3 : offset = pos) by lia. subst g offset. exists o'. apply stored_body, H2.
  - intros e o Hn. destruct (written_current file revs c F e o Hn) as (r & older & newer & E & Hno & H).
    assert (Hcur : forall row, In (xnum e, row) (r_rows r) -> current revs (xnum e) row older) by (intros row Hr; exists newer, r; auto).
    destruct (xdata e) as [next|z u|a b]; [intros g; apply (sf_free _ _ _ _ (xgen e) older), Hcur, H| |intros g; apply (sf_free _ _ _ _ (xgen e) older), Hcur, H].
    destruct H as (pos & o' & H1 & H2 & H3). intros Hnn. assert (Hst : stands_for file revs (xnum e) (xgen e) o') by (apply (sf_object _ _ _ _ pos older); [apply Hcur, H1|apply stored_body, H2]).
    rewrite (proj1 (stands_content _ _ _ _ _ _ Hc Hst ltac:(destruct H3; [exact Hnn|discriminate]))). exact Hst.
  - intros n g Hu. apply sf_unknown. exact (written_unknown file revs c n F Hu).
Qed.

Definition used (n g : N) (o : obj) : xentry * obj := ({| xnum := n; xgen := g; xdata := KUsed 0 true |}, o).
Definition freed (n g : N) : xentry * obj := ({| xnum := n; xgen := g; xdata := KFree 0 |}, ONull).
(** The document of C61_case as a file: objects 4 and 6 are equal, 2 was replaced, 8 was deleted and refers to an object that does not
    exist, the number 10 was given to another object. *)
Definition case_old : list (xentry * obj) :=
  [freed 0 65535; used 1 0 (ODict [(str "Pages", ORef 2 0); (str "Type", OName (str "Catalog"))]);
   used 2 0 (ODict [(str "Count", OInt 0); (str "Kids", OArr [ORef 8 0])]);
   used 4 0 (ODict [(str "Parent", ORef 2 0); (str "Type", OName (str "Page")); (str "UserUnit", OReal false 15 1)]);
   used 6 0 (ODict [(str "Parent", ORef 2 0); (str "Type", OName (str "Page")); (str "UserUnit", OReal false 15 1)]);
   used 8 0 (OArr [ORef 77 0; ORef 10 0]); used 10 0 (OLit (str "gone"))].
Definition case_new : list (xentry * obj) :=
  [used 2 0 (ODict [(str "Count", OInt 2); (str "Kids", OArr [ORef 4 0; ORef 6 0; ORef 9 0; ORef 10 1])]); freed 8 1;
   used 9 0 (OStream [(str "Length", OInt 3); (str "Parent", ORef 2 0)] (str "q Q")); 
   used 10 1 (ODict [(str "Parent", ORef 2 0); (str "Type", OName (str "Pages"))])].
Definition case_trailer : list (bytes * obj) := [(str "Root", ORef 1 0); (str "Size", OInt 11)].
Definition case_sections : list saved_section := [(case_old, case_trailer); (case_new, case_trailer)].
Definition bytes_of (x : res bytes) : bytes := match x with Ok b => b | _ => [] end.
Definition tables_of (n : nat) (file : bytes) : chain :=
  match initialize parser_dictionary no_filter n [] file with Ok (_, ByTable C) => C | _ => [] end.
Definition case_file : bytes := Eval vm_compute in bytes_of (write_tables PDF14 case_sections).
Definition case_chain : chain := Eval vm_compute in tables_of 2 case_file.
Definition case_store : store := document_objects (content_of case_file case_chain) case_chain.

Definition case_live : list (N * N) := [(1, 0); (2, 0); (4, 0); (6, 0); (9, 0); (10, 1)].
Ltac in_list H := cbn [In fst snd] in H; try unfold case_old in H; try unfold case_new in H; try unfold case_trailer in H; try unfold case_live in H; cbn [In fst snd] in H; repeat match type of H with _ \/ _ => destruct H as [H|H] | False => destruct H end.
Ltac saveable := unfold case_old, case_new, case_trailer; split; [cbn [map fst snd xnum used freed]; repeat (apply SSorted_cons; [|repeat (apply Forall_cons; [reflexivity|]); apply Forall_nil]); apply SSorted_nil|split; [|split; [|split; [intros ? H; in_list H; discriminate H|vm_compute; reflexivity]]]];
  [cbn [fst snd]; repeat (apply Forall_cons; [split; [split; [cbn; lia|split; [cbn; lia|cbn; try reflexivity; lia]]|intros ? _; cbn [snd used freed]; try solve [Save.write_it]]|]); try apply Forall_nil|Save.write_it].
Ltac linked := intros e o next Hin Hd; in_list Hin; apply (f_equal fst) in Hin; cbn [fst used freed] in Hin; subst e; cbn [xdata] in Hd; try discriminate Hd; assert (next = 0) by congruence; subst next; reflexivity.
Lemma case_source : exists revs, conforming case_file PDF14 revs /\ List.length revs = 2%nat /\ map r_trailer revs = map s_trailer case_chain /\
    List.length (flat_map r_rows revs) = 11%nat /\ rows_lead_to_objects case_file revs /\
    (forall e o, newest case_sections e o ->
       match xdata e with
       | KUsed _ _ => o <> ONull -> stands_for case_file revs (xnum e) (xgen e) (case_store (xnum e) (xgen e))
       | _ => forall g, stands_for case_file revs (xnum e) g ONull
       end) /\
    forall n g, unknown case_sections n -> stands_for case_file revs n g ONull.
Proof.
  apply (source_case PDF14 case_sections case_file case_chain).
  - unfold case_sections. apply Forall_cons; [|apply Forall_cons; [|apply Forall_nil]]; saveable.
    apply st_stream; [Save.write_it| |reflexivity]. intros v Hv. in_list Hv; [|discriminate]. assert (v = OInt 3) by congruence. subst v. exists 3%Z. split; [reflexivity|lia].
  - unfold case_sections. apply Forall_cons; [|apply Forall_cons; [|apply Forall_nil]]; linked.
  - discriminate.
  - intros s rest x E. apply (f_equal (hd (case_old, case_trailer))) in E. cbn [hd case_sections] in E. subst s. intros H. in_list H; discriminate H.
  - vm_compute. reflexivity.
  - vm_compute. discriminate.
  - vm_compute. reflexivity.
Qed.

Definition case_root : list (bytes * obj) := s_trailer (hd (Save.table [] []) case_chain).
Lemma case_within : forall n g, live case_store (ODict case_root) n g -> In (n, g) case_live.
Proof.
  apply Save.live_within.
  - intros n g H. apply refs_mentions in H. vm_compute in H. in_list H. assert (n = 1 /\ g = 0) as [-> ->] by (split; congruence). cbn. tauto.
  - intros m gm n g Hm H. apply refs_mentions in H. in_list Hm; apply pair_equal_spec in Hm; destruct Hm as [<- <-]; vm_compute in H; in_list H; apply pair_equal_spec in H; destruct H as [<- <-]; cbn; tauto.
Qed.
Lemma case_newest : forall n g, In (n, g) case_live -> exists e o, newest case_sections e o /\ xnum e = n /\ xgen e = g /\ xdata e = KUsed 0 true /\ o <> ONull.
Proof.
  assert (Hnew : forall e o, In (e, o) case_new -> newest case_sections e o).
  { intros e o H. exists [(case_old, case_trailer)], (case_new, case_trailer), []. split; [reflexivity|]. split; [exact H|]. intros x p []. }
  assert (Hold : forall e o, In (e, o) case_old -> ~ In (xnum e) [2; 8; 9; 10] -> newest case_sections e o).
  { intros e o H Hn. exists [], (case_old, case_trailer), [(case_new, case_trailer)]. split; [reflexivity|]. split; [exact H|]. intros x p [<-|[]] Hp E. apply Hn.
    in_list Hp; subst p; cbn [fst used freed xnum] in E; rewrite <- E; cbn; tauto. }
  intros n g H. in_list H; apply pair_equal_spec in H; destruct H as [<- <-]; match goal with |- exists e o, _ /\ xnum e = ?a /\ xgen e = ?b /\ _ => exists {| xnum := a; xgen := b; xdata := KUsed 0 true |} end; eexists;
    (split; [first [apply Hnew; cbn [case_new In used]; solve [repeat first [left; reflexivity|right]]|apply Hold; [cbn [case_old In used]; solve [repeat first [left; reflexivity|right]]|cbn; intuition discriminate]]|]);
    (split; [reflexivity|]); (split; [reflexivity|]); (split; [reflexivity|discriminate]).
Qed.
Example C96_case : exists r older file', conforming case_file PDF14 (r :: older) /\ List.length (r :: older) = 2%nat /\
  N.of_nat (S (List.length (flat_map r_rows (r :: older)))) < 2 ^ 63 /\ writable (ODict (r_trailer r)) /\
  shows case_file (r :: older) case_store (r_trailer r) /\ sound_document Save.any_real Duplicates.plain_hash case_store (ODict (r_trailer r)) /\
  rows_lead_to_objects case_file (r :: older) /\ live_reals_within_range Save.any_real case_store (ODict (r_trailer r)) /\
  resave Save.any_real Duplicates.plain_hash Save.by_number Save.as_listed no_filter 2 case_file = Ok file' /\ (Z.of_nat (List.length file') <= 10 ^ 10)%Z.
Proof.
  destruct case_source as (revs & Hc & L & Et & Ec & Hlead & Hst & Hun). destruct revs as [|r older]; [discriminate L|].
  assert (Er : r_trailer r = case_root) by (apply (f_equal (hd [])) in Et; exact Et).
  exists r, older. eexists. split; [exact Hc|]. split; [exact L|]. split; [rewrite Ec; reflexivity|]. rewrite Er.
  split; [vm_compute; Save.write_it|]. split; [|split; [|split; [exact Hlead|split; [|split; [vm_compute; reflexivity|vm_compute; discriminate]]]]].
  - intros n g H. apply case_within, case_newest in H. destruct H as (e & o & Hn & <- & <- & Hd & Ho). apply Hst in Hn. rewrite Hd in Hn. exact (Hn Ho).
  - constructor; intros n g H; apply case_within in H.
    + in_list H; apply pair_equal_spec in H; destruct H as [<- <-]; vm_compute; discriminate.
    + in_list H; apply pair_equal_spec in H; destruct H as [<- <-]; (split; [vm_compute|vm_compute; discriminate]); try solve [Save.write_it].
      apply st_stream; [Save.write_it| |reflexivity]. intros v Hv. cbn [In] in Hv. destruct Hv as [Hv|[Hv|[]]]; [|discriminate Hv]. assert (v = OInt 3) by congruence. subst v. exists 3%Z. split; [reflexivity|lia].
    + in_list H; apply pair_equal_spec in H; destruct H as [<- <-]; try solve [left; right; vm_compute; discriminate]; try solve [left; left; vm_compute; repeat constructor].
      right. exists [(str "Length", OInt 3); (str "Parent", ORef 2 0)], (str "q Q"). split; [vm_compute; reflexivity|]. intros n' g' m' L' E. apply case_within in L'.
      in_list L'; apply pair_equal_spec in L'; destruct L' as [<- <-]; vm_compute in E; try discriminate E. split; reflexivity.
  - intros n g neg m p H H2. apply case_within in H. apply Save.reals_inside in H2. in_list H; apply pair_equal_spec in H; destruct H as [<- <-]; vm_compute in H2; in_list H2; 
      assert (neg = false /\ m = 15 /\ p = 1) as (-> & -> & ->) by (repeat split; congruence); vm_compute; reflexivity.
Qed.

(** ** What is missing *)
(** what the file that is written holds, before it is written *)
Definition written_items (file : bytes) (c : chain) : list saved_section :=
  match optimize Save.any_real Duplicates.plain_hash (content_of file c) Save.by_number Save.as_listed c with Ok p => [p] | _ => [] end.

(** A reference to an object that does not exist stands for null.  After the save it stands for an object that has nothing to do with it. *)
Definition dangling_items : list (xentry * obj) :=
  [freed 0 65535; used 1 0 (ODict [(str "Metadata", ORef 3 0); (str "Pages", ORef 5 0); (str "PieceInfo", ORef 7 0); (str "Type", OName (str "Catalog"))]);
   used 5 0 (ODict [(str "Count", OInt 0); (str "Kids", OArr [])]); used 7 0 (OLit (str "secret"))].
Definition dangling_sections : list saved_section := [(dangling_items, case_trailer)].
Definition dangling_file : bytes := Eval vm_compute in bytes_of (write_tables PDF14 dangling_sections).
Definition dangling_chain : chain := Eval vm_compute in tables_of 1 dangling_file.
Definition dangling_saved : list saved_section := Eval vm_compute in written_items dangling_file dangling_chain.
Definition dangling_file' : bytes := Eval vm_compute in bytes_of (write_tables PDF14 dangling_saved).
Definition dangling_chain' : chain := Eval vm_compute in tables_of 1 dangling_file'.

(** An object that was deleted: references to it stand for null.  After the save they stand for the object that was deleted. *)
Definition deleted_items : list (xentry * obj) :=
  [freed 0 65535; used 1 0 (ODict [(str "Pages", ORef 2 0); (str "PieceInfo", ORef 3 0); (str "Type", OName (str "Catalog"))]);
   used 2 0 (ODict [(str "Count", OInt 0); (str "Kids", OArr [])]); used 3 0 (OLit (str "secret"))].
Definition deleted_sections : list saved_section := [(deleted_items, case_trailer); ([freed 3 1], case_trailer)].
Definition deleted_file : bytes := Eval vm_compute in bytes_of (write_tables PDF14 deleted_sections).
Definition deleted_chain : chain := Eval vm_compute in tables_of 2 deleted_file.
Definition deleted_saved : list saved_section := Eval vm_compute in written_items deleted_file deleted_chain.
Definition deleted_file' : bytes := Eval vm_compute in bytes_of (write_tables PDF14 deleted_saved).
Definition deleted_chain' : chain := Eval vm_compute in tables_of 1 deleted_file'.

Lemma dangling_read : exists revs, conforming dangling_file PDF14 revs /\ List.length revs = 1%nat /\ map r_trailer revs = map s_trailer dangling_chain /\
    List.length (flat_map r_rows revs) = 4%nat /\ rows_lead_to_objects dangling_file revs /\
    (forall e o, newest dangling_sections e o ->
       match xdata e with
       | KUsed _ _ => o <> ONull -> stands_for dangling_file revs (xnum e) (xgen e) (document_objects (content_of dangling_file dangling_chain) dangling_chain (xnum e) (xgen e))
       | _ => forall g, stands_for dangling_file revs (xnum e) g ONull
       end) /\
    forall n g, unknown dangling_sections n -> stands_for dangling_file revs n g ONull.
Proof.
  apply (source_case PDF14 dangling_sections dangling_file dangling_chain).
  - unfold dangling_sections, dangling_items, case_trailer. apply Forall_cons; [|apply Forall_nil]; saveable.
  - unfold dangling_sections, dangling_items, case_trailer. apply Forall_cons; [|apply Forall_nil]; linked.
  - discriminate.
  - intros s rest x E. apply (f_equal (hd ([], []))) in E. cbn [hd dangling_sections] in E. subst s. intros H. in_list H; discriminate H.
  - vm_compute. reflexivity.
  - vm_compute. discriminate.
  - vm_compute. reflexivity.
Qed.
Lemma dangling_written : exists revs, conforming dangling_file' PDF14 revs /\ List.length revs = 1%nat /\ map r_trailer revs = map s_trailer dangling_chain' /\
    List.length (flat_map r_rows revs) = 4%nat /\ rows_lead_to_objects dangling_file' revs /\
    (forall e o, newest dangling_saved e o ->
       match xdata e with
       | KUsed _ _ => o <> ONull -> stands_for dangling_file' revs (xnum e) (xgen e) (document_objects (content_of dangling_file' dangling_chain') dangling_chain' (xnum e) (xgen e))
       | _ => forall g, stands_for dangling_file' revs (xnum e) g ONull
       end) /\
    forall n g, unknown dangling_saved n -> stands_for dangling_file' revs n g ONull.
Proof.
  apply (source_case PDF14 dangling_saved dangling_file' dangling_chain').
  - unfold dangling_saved. apply Forall_cons; [|apply Forall_nil]; saveable.
  - unfold dangling_saved. apply Forall_cons; [|apply Forall_nil]; linked.
  - discriminate.
  - intros s rest x E. apply (f_equal (hd ([], []))) in E. cbn [hd dangling_saved] in E. subst s. intros H. in_list H; discriminate H.
  - vm_compute. reflexivity.
  - vm_compute. discriminate.
  - vm_compute. reflexivity.
Qed.

Lemma deleted_read : exists revs, conforming deleted_file PDF14 revs /\ List.length revs = 2%nat /\ map r_trailer revs = map s_trailer deleted_chain /\
    List.length (flat_map r_rows revs) = 5%nat /\ rows_lead_to_objects deleted_file revs /\
    (forall e o, newest deleted_sections e o ->
       match xdata e with
       | KUsed _ _ => o <> ONull -> stands_for deleted_file revs (xnum e) (xgen e) (document_objects (content_of deleted_file deleted_chain) deleted_chain (xnum e) (xgen e))
       | _ => forall g, stands_for deleted_file revs (xnum e) g ONull
       end) /\
    forall n g, unknown deleted_sections n -> stands_for deleted_file revs n g ONull.
Proof.
  apply (source_case PDF14 deleted_sections deleted_file deleted_chain).
  - unfold deleted_sections, deleted_items, case_trailer. apply Forall_cons; [|apply Forall_cons; [|apply Forall_nil]]; saveable.
  - unfold deleted_sections, deleted_items, case_trailer. apply Forall_cons; [|apply Forall_cons; [|apply Forall_nil]]; linked.
  - discriminate.
  - intros s rest x E. apply (f_equal (hd ([], []))) in E. cbn [hd deleted_sections] in E. subst s. intros H. in_list H; discriminate H.
  - vm_compute. reflexivity.
  - vm_compute. discriminate.
  - vm_compute. reflexivity.
Qed.
Lemma deleted_written : exists revs, conforming deleted_file' PDF14 revs /\ List.length revs = 1%nat /\ map r_trailer revs = map s_trailer deleted_chain' /\
    List.length (flat_map r_rows revs) = 4%nat /\ rows_lead_to_objects deleted_file' revs /\
    (forall e o, newest deleted_saved e o ->
       match xdata e with
       | KUsed _ _ => o <> ONull -> stands_for deleted_file' revs (xnum e) (xgen e) (document_objects (content_of deleted_file' deleted_chain') deleted_chain' (xnum e) (xgen e))
       | _ => forall g, stands_for deleted_file' revs (xnum e) g ONull
       end) /\
    forall n g, unknown deleted_saved n -> stands_for deleted_file' revs n g ONull.
Proof.
  apply (source_case PDF14 deleted_saved deleted_file' deleted_chain').
  - unfold deleted_saved. apply Forall_cons; [|apply Forall_nil]; saveable.
  - unfold deleted_saved. apply Forall_cons; [|apply Forall_nil]; linked.
  - discriminate.
  - intros s rest x E. apply (f_equal (hd ([], []))) in E. cbn [hd deleted_saved] in E. subst s. intros H. in_list H; discriminate H.
  - vm_compute. reflexivity.
  - vm_compute. discriminate.
  - vm_compute. reflexivity.
Qed.

Ltac newest_in k := match goal with |- newest ?c ?e ?o => exists (firstn k c), (nth k c ([], [])), (skipn (S k) c); split; [reflexivity|]; split;
  [vm_compute; solve [repeat first [left; reflexivity|right]]|intros x p Hx Hp; vm_compute in Hx; in_list Hx; subst x; in_list Hp; subst p; discriminate] end.
Theorem C96_dangling_refuted : exists file r file' r',
  conforming file PDF14 [r] /\ In (str "Root", ORef 1 0) (r_trailer r) /\ rows_lead_to_objects file [r] /\
  stands_for file [r] 1 0 (ODict [(str "Metadata", ORef 3 0); (str "Pages", ORef 5 0); (str "PieceInfo", ORef 7 0); (str "Type", OName (str "Catalog"))]) /\
  stands_for file [r] 3 0 ONull /\
  resave Save.any_real Duplicates.plain_hash Save.by_number Save.as_listed no_filter 1 file = Ok file' /\
  conforming file' PDF14 [r'] /\ In (str "Root", ORef 1 0) (r_trailer r') /\
  stands_for file' [r'] 1 0 (ODict [(str "Metadata", ORef 3 0); (str "Pages", ORef 2 0); (str "PieceInfo", ORef 3 0); (str "Type", OName (str "Catalog"))]) /\
  stands_for file' [r'] 3 0 (OLit (str "secret")).
Proof.
  destruct dangling_read as (revs & Hc & L & Et & _ & Hlead & Hst & Hun). destruct revs as [|r [|? ?]]; try discriminate L.
  destruct dangling_written as (revs & Hc' & L' & Et' & _ & _ & Hst' & _). destruct revs as [|r' [|? ?]]; try discriminate L'.
  assert (Er : r_trailer r = s_trailer (hd (Save.table [] []) dangling_chain)) by (apply (f_equal (hd [])) in Et; exact Et).
  assert (Er' : r_trailer r' = s_trailer (hd (Save.table [] []) dangling_chain')) by (apply (f_equal (hd [])) in Et'; exact Et').
  exists dangling_file, r, dangling_file', r'. split; [exact Hc|]. split; [rewrite Er; vm_compute; tauto|]. split; [exact Hlead|]. split; [|split; [|split; [|split; [exact Hc'|split; [rewrite Er'; vm_compute; tauto|split]]]]].
  - apply (Hst (fst (used 1 0 ONull)) (snd (nth 1 dangling_items (freed 0 0)))); [newest_in O|discriminate].
  - apply Hun. intros s p [<-|[]] Hp. cbn [fst dangling_items] in Hp. cbn [In] in Hp. repeat (destruct Hp as [<-|Hp]; [discriminate|]). destruct Hp.
  - vm_compute. reflexivity.
  - apply (Hst' {| xnum := 1; xgen := 0; xdata := KUsed 15 true |} (snd (nth 1 (fst (nth 0 dangling_saved ([], []))) (freed 0 0)))); [newest_in O|discriminate].
  - apply (Hst' {| xnum := 3; xgen := 0; xdata := KUsed 132 true |} (OLit (str "secret"))); [newest_in O|discriminate].
Qed.
Theorem C96_deleted_refuted : exists file r older file' r',
  conforming file PDF14 [r; older] /\ In (str "Root", ORef 1 0) (r_trailer r) /\ rows_lead_to_objects file [r; older] /\
  stands_for file [r; older] 1 0 (ODict [(str "Pages", ORef 2 0); (str "PieceInfo", ORef 3 0); (str "Type", OName (str "Catalog"))]) /\
  stands_for file [r; older] 3 0 ONull /\
  resave Save.any_real Duplicates.plain_hash Save.by_number Save.as_listed no_filter 2 file = Ok file' /\
  conforming file' PDF14 [r'] /\ In (str "Root", ORef 1 0) (r_trailer r') /\
  stands_for file' [r'] 1 0 (ODict [(str "Pages", ORef 2 0); (str "PieceInfo", ORef 3 0); (str "Type", OName (str "Catalog"))]) /\
  stands_for file' [r'] 3 0 (OLit (str "secret")).
Proof.
  destruct deleted_read as (revs & Hc & L & Et & _ & Hlead & Hst & Hun). destruct revs as [|r [|older [|? ?]]]; try discriminate L.
  destruct deleted_written as (revs & Hc' & L' & Et' & _ & _ & Hst' & _). destruct revs as [|r' [|? ?]]; try discriminate L'.
  assert (Er : r_trailer r = s_trailer (hd (Save.table [] []) deleted_chain)) by (apply (f_equal (hd [])) in Et; exact Et).
  assert (Er' : r_trailer r' = s_trailer (hd (Save.table [] []) deleted_chain')) by (apply (f_equal (hd [])) in Et'; exact Et').
  exists deleted_file, r, older, deleted_file', r'. split; [exact Hc|]. split; [rewrite Er; vm_compute; tauto|]. split; [exact Hlead|]. split; [|split; [|split; [|split; [exact Hc'|split; [rewrite Er'; vm_compute; tauto|split]]]]].
  - apply (Hst (fst (used 1 0 ONull)) (snd (nth 1 deleted_items (freed 0 0)))); [newest_in O|discriminate].
  - apply (Hst (fst (freed 3 1)) ONull). newest_in 1%nat.
  - vm_compute. reflexivity.
  - apply (Hst' {| xnum := 1; xgen := 0; xdata := KUsed 15 true |} (snd (nth 1 (fst (nth 0 deleted_saved ([], []))) (freed 0 0)))); [newest_in O|discriminate].
  - apply (Hst' {| xnum := 3; xgen := 0; xdata := KUsed 116 true |} (OLit (str "secret"))); [newest_in O|discriminate].
Qed.

Print Assumptions C96_resaved_partial.
Print Assumptions C96_resave_succeeds_partial.
Print Assumptions C96_dangling_refuted.
Print Assumptions C96_deleted_refuted.

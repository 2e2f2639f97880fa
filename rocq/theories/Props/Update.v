(** C21 for files with several sections, and C36: incremental saves. *)
From Coq Require Import List NArith ZArith Bool Lia String Sorted.
From Verif.Model Require Import Base Char Numbers SMap Object Token Parser Arith Containers Xref StartXref Header FileWrite Chain Merge Update.
From Verif.Spec Require Import Strings Grammar Xref FileWrite Chain Merge Update.
From Verif.Proof Require Import Tac Numbers Parser Writer StreamObj Xref StartXref FileWrite.
From Verif.Proof Require Chain Update.
From Verif.Props Require Chain.
Import ListNotations.
Local Open Scope N_scope.

(** ** C21: several sections *)

(** A document with any number of table sections, oldest first.  Opening the written file follows Prev from the newest section to the
    oldest, and finds every section: the same numbers, every in-use object at the recorded offset and loading as it was, the same
    trailer (except for Size, which is the number of entries, and Prev). *)
Theorem C21_sections_reopen : forall decode rl v l m c file,
  Forall section_saveable ((l, m) :: c) -> (forall x, ~ In (str "Prev", x) m) ->
  write_tables v ((l, m) :: c) = Ok file -> (Z.of_nat (List.length file) < 2 ^ 63)%Z ->
  exists secs offset, last_xref_offset file = Ok offset /\
    (forall f, (List.length secs <= f)%nat -> read_chain parser_dictionary decode f file offset = Ok (rev secs)) /\
    Forall2 (fun sec p => holds_section parser_dictionary rl file sec (fst p) /\ same_trailer (snd p) (s_trailer sec) /\
                          sm_find (str "Size") (s_trailer sec) = Some (OInt (Z.of_nat (List.length (fst p))))) secs ((l, m) :: c).
Proof.
  intros decode rl v l m c file Hc Hp Hw Hfit. inversion Hc as [|? ? H1 H2]; subst.
  destruct (Proof.Update.tables_read decode rl v l m c file H1 Hp H2 Hw Hfit) as (secs & off & E1 & E2 & E3).
  exists secs, off. split; [exact E1|]. split.
  - intros f Hf. replace f with (List.length secs + (f - List.length secs))%nat by lia. apply E3.
  - clear - E2. induction E2 as [|a b la lb (P1 & P2 & _ & P4) _ IH]; constructor; auto.
Qed.

(** ** C36 *)

(** An incremental save keeps every byte of the source and appends.  The appended section is the one found when the file is opened; it
    lists the changed numbers and 0, every changed object can be loaded through it as it was changed, and it keeps the document's
    Root, Info, ID and Encrypt. *)
Theorem C36_update_recorded_partial : forall decode rl file s r file',
  changes_saveable entry_saveable storable (s :: r) -> changed_once (s :: r) ->
  writable (ODict (f_trailer s)) -> (forall v, ~ In (str "XRefStm", v) (f_trailer s)) -> (0 <= f_offset s < 2 ^ 63)%Z ->
  N.of_nat (List.length (flat_map f_items (s :: r))) + 1 < 2 ^ 63 ->
  write_incremental file (s :: r) = Ok file' -> (Z.of_nat (List.length file') < 2 ^ 63)%Z ->
  (exists more, file' = file ++ more) /\
  exists offset sec, last_xref_offset file' = Ok offset /\
    (forall c, read_section parser_dictionary decode file' c offset = Ok (c, sec)) /\
    (forall e o, changed_live (s :: r) e o -> exists at_ o',
      entry_of sec (xnum e) {| xnum := xnum e; xgen := xgen e; xdata := KUsed at_ true |} /\
      load_entry parser_dictionary rl file' {| xnum := xnum e; xgen := xgen e; xdata := KUsed at_ true |} = Ok (xnum e, xgen e, o') /\
      same_object o o') /\
    (forall x, In x (s_entries sec) -> xnum x = 0 \/
      exists s' y, In s' (s :: r) /\ In y (f_items s') /\ f_dirty y = true /\ xnum (f_entry y) = xnum x) /\
    (forall k, In k [str "Root"; str "Info"; str "ID"; str "Encrypt"] -> sm_find k (s_trailer sec) = sm_find k (f_trailer s)).
Proof.
  intros decode rl file s r file' Hsv Hone Ht Hx Hoff Hn Hw Hfit.
  destruct (Proof.Update.incremental_read decode rl file s r file' Hsv Ht Hx Hoff Hn Hw Hfit) as (off & sec & (more & E) & E1 & E2 & (_ & _ & E3 & E4) & _ & E5 & _).
  split; [exists ([10] ++ more); exact E|]. exists off, sec. split; [exact E1|]. split; [exact E2|]. split; [|split; [|exact E5]].
  - intros e o Hch. assert (Hin := Proof.Update.changed_listed _ e o Hone Hch). specialize (E4 e o Hin). destruct Hch as (s' & o0 & _ & Hd & _). rewrite Hd in E4.
    destruct E4 as (at_ & o' & F1 & _ & F2 & F3). exists at_, o'. auto.
  - intros x Hin. destruct (proj1 (E3 (xnum x)) (ex_intro _ x (conj Hin eq_refl))) as (p & Hp & Ep). apply Proof.Update.add_all_in in Hp. destruct Hp as [Hp|[<-|[]]].
    + right. unfold Proof.Update.changes in Hp. apply in_flat_map in Hp. destruct Hp as (s' & Hs & Hp). apply in_flat_map in Hp. destruct Hp as (y & Hy & Hp).
      destruct (Proof.Update.change_num _ _ Hp) as (D & N1 & _). exists s', y. repeat split; try assumption. congruence.
    + left. symmetry. exact Ep.
Qed.

(** A document saved with one section and then changed and saved incrementally: opening the result finds both sections, newest first.
    A changed object resolves to its new state, an object that was not changed to what the full save wrote. *)
Theorem C36_saved_then_updated_partial : forall decode rl v l m file s off0 file',
  section_saveable (l, m) -> (forall x, ~ In (str "Prev", x) m) -> write_tables v [(l, m)] = Ok file -> last_xref_offset file = Ok off0 ->
  f_offset s = off0 -> f_trailer s = set_size m (N.of_nat (List.length l)) ->
  changes_saveable entry_saveable storable [s] -> changed_once [s] -> (exists x, In x (f_items s) /\ f_dirty x = true) ->
  N.of_nat (List.length (f_items s)) + 1 < 2 ^ 63 ->
  write_incremental file [s] = Ok file' -> (Z.of_nat (List.length file') < 2 ^ 63)%Z ->
  exists offset sec1 sec0, last_xref_offset file' = Ok offset /\
    (forall f, (2 <= f)%nat -> read_chain parser_dictionary decode f file' offset = Ok [sec1; sec0]) /\
    holds_section parser_dictionary rl file' sec0 l /\
    (forall e o, changed_live [s] e o -> exists e' o', resolve_entry (xnum e) (xgen e) [sec1; sec0] = Some e' /\
      load_entry parser_dictionary rl file' e' = Ok (xnum e, xgen e, o') /\ same_object o o') /\
    (forall e o old, In (e, o) l -> xdata e = KUsed old true -> xnum e <> 0 ->
      (forall y, In y (f_items s) -> f_dirty y = true -> xnum (f_entry y) <> xnum e) ->
      exists e' o', resolve_entry (xnum e) (xgen e) [sec1; sec0] = Some e' /\
        load_entry parser_dictionary rl file' e' = Ok (xnum e, xgen e, o') /\ same_object o o').
Proof.
  intros decode rl v l m file s off0 file' Hl Hp Hw Hlast Ho Htr Hsv Hone (x0 & Hx0 & Hd0) Hn Hi Hfit.
  unfold write_tables in Hw. cbn [append_sections rbind] in Hw. apply rbind_ok in Hw. destruct Hw as ([out off] & Ha & Hw). apply Ok_inj in Hw. subst out.
  assert (Hq : section_saveable (l, m)) by exact Hl. destruct Hq as (Q1 & Q2 & Q3 & Q4 & Q5). cbn [fst snd] in *.
  assert (Hext : exists p, file' = file ++ p).
  { unfold write_incremental in Hi. apply rbind_ok in Hi. destruct Hi as ([t mm] & _ & Hi). apply rbind_ok in Hi. destruct Hi as ([o1 o2] & Hi & H2). apply Ok_inj in H2. subst o1.
    unfold append_section in Hi. apply rbind_ok in Hi. destruct Hi as (l1 & _ & Hi). destruct (write_objects None _ l1) as [body l2]. apply rbind_ok in Hi. destruct Hi as (tb & _ & Hi).
    apply Ok_inj in Hi. assert (E := f_equal fst Hi). cbn [fst] in E. rewrite <- app_assoc in E. eexists. symmetry. exact E. }
  destruct Hext as (p & Ep).
  assert (Hfit0 : Proof.Update.fits file) by (unfold Proof.Update.fits; rewrite Ep, app_length in Hfit; lia).
  destruct (Proof.Update.first_section_read decode rl _ l m file off Hl Hp Ha Hfit0) as (R1 & R2 & sec0 & R3 & R4). rewrite R2 in Hlast. apply Ok_inj in Hlast. subst off.
  destruct (Proof.Update.size_written m (List.length l) Q3 Q5) as (Z1 & Z2 & Z3 & Z4).
  destruct (R4 p) as ((S1 & S2 & S3 & S4) & _ & S6). rewrite <- Ep in S1, S6. cbn [fst snd] in *.
  assert (Hxs : forall w, ~ In (str "XRefStm", w) (f_trailer s)).
  { rewrite Htr. apply (Proof.Update.not_in_find _ _ Z1 (str_bytes _)). rewrite Z4 by (apply str_bytes || discriminate). apply Proof.Update.not_in_find; [exact Q3|apply str_bytes|exact Q4]. }
  assert (Hwt : writable (ODict (f_trailer s))) by (rewrite Htr; exact Z1).
  destruct (Proof.Update.incremental_read decode rl file s [] file' Hsv Hwt Hxs ltac:(rewrite Ho; exact R1) ltac:(cbn [flat_map]; rewrite app_nil_r; exact Hn) Hi Hfit)
    as (offn & sec1 & _ & E1 & E2 & E3 & E4 & _ & E6).
  rewrite Htr in E6. rewrite Z4 in E6 by (apply str_bytes || discriminate). rewrite (proj1 (Proof.Update.not_in_find m (str "Prev") Q3 (str_bytes _)) Hp) in E6.
  assert (Hany : existsb (fun s => Proof.Update.some_dirty (f_items s)) [s] = true).
  { cbn [existsb]. rewrite orb_false_r. unfold Proof.Update.some_dirty. apply existsb_exists. exists x0. split; assumption. }
  rewrite Hany, Ho in E6.
  exists offn, sec1, sec0. split; [exact E1|]. split; [|split; [exact S1|]].
  { intros f Hf. apply Proof.Update.chain_finished; [discriminate| |].
    - destruct f as [|[|f]]; [lia|lia|]. cbn [read_sections]. rewrite E2. cbn [rbind app]. unfold sm_contains, find_int. rewrite E6. cbn [int_value rbind].
      change (read_sections parser_dictionary decode (S f) file' [sec1] off0 = Ok [sec1; sec0]). rewrite S6. reflexivity.
    - intros sc [<-|[<-|[]]]; [split; [apply E3|exact E4]|split; [apply S1|exact S3]]. }
  destruct E3 as (_ & T0 & T1 & T2). split.
  - intros e o Hch. assert (Hin := Proof.Update.changed_listed _ e o Hone Hch). specialize (T2 e o Hin). destruct Hch as (s' & o0 & _ & Hd & _). rewrite Hd in T2.
    destruct T2 as (at_ & o' & F1 & _ & F2 & F3). eexists. exists o'. split; [|split; [exact F2|exact F3]].
    exact (Props.Chain.C24_newest_wins_partial (xnum e) (xgen e) [] sec1 [sec0] _ ltac:(intros ? ? []) F1 eq_refl).
  - intros e o old Hin Hd H0 Hnone. destruct S1 as (_ & _ & _ & V). specialize (V e o Hin). rewrite Hd in V. destruct V as (at_ & o' & F1 & _ & F2 & F3).
    eexists. exists o'. split; [|split; [exact F2|exact F3]].
    apply (Props.Chain.C24_newest_wins_partial (xnum e) (xgen e) [sec1] sec0 [] _) with (2 := F1); [|reflexivity].
    intros s' e' [<-|[]] He. assert (Hhas : exists x, In x (s_entries sec1) /\ xnum x = xnum e).
    { destruct He as [(b & a & Eb & En & _)|(_ & _ & h & b & a & Eh & _)]; [|congruence]. exists e'. split; [rewrite Eb; apply in_or_app; right; left; reflexivity|exact En]. }
    apply T1 in Hhas. destruct Hhas as (q & Hq & Eq). apply Proof.Update.add_all_in in Hq. destruct Hq as [Hq|[<-|[]]]; [|apply H0; symmetry; exact Eq].
    unfold Proof.Update.changes in Hq. cbn [flat_map] in Hq. rewrite app_nil_r in Hq. apply in_flat_map in Hq. destruct Hq as (y & Hy & Hq).
    destruct (Proof.Update.change_num _ _ Hq) as (D & N1 & _). apply (Hnone y Hy D). congruence.
Qed.

(** An edited object that lives in an object stream makes every incremental save fail. *)
Theorem C36_compressed_edit_fails : forall file c s x, In s c -> In x (f_items s) -> f_dirty x = true ->
  (exists a b, xdata (f_entry x) = KComp a b) -> write_incremental file c = Throw EGeneral.
Proof.
  intros file c s x H1 H2 H3 H4. unfold write_incremental, create_incremental. rewrite (Proof.Update.collect_compressed c s x _ _ H1 H2 H3 H4). reflexivity.
Qed.

(** After an update, a second incremental save goes back to the section the *first* update pointed to: for every source whose newest
    section has a Prev, the new section points past it. *)
Theorem C36_newest_section_skipped : forall decode (rl : N -> N -> res Z) file s r file' prev,
  changes_saveable entry_saveable storable (s :: r) ->
  writable (ODict (f_trailer s)) -> (forall v, ~ In (str "XRefStm", v) (f_trailer s)) -> (0 <= f_offset s < 2 ^ 63)%Z ->
  N.of_nat (List.length (flat_map f_items (s :: r))) + 1 < 2 ^ 63 ->
  sm_find (str "Prev") (f_trailer s) = Some (OInt prev) ->
  write_incremental file (s :: r) = Ok file' -> (Z.of_nat (List.length file') < 2 ^ 63)%Z ->
  exists offset sec, last_xref_offset file' = Ok offset /\ (forall c, read_section parser_dictionary decode file' c offset = Ok (c, sec)) /\
    sm_find (str "Prev") (s_trailer sec) = Some (OInt prev).
Proof.
  intros decode rl file s r file' prev Hsv Ht Hx Hoff Hn Hprev Hw Hfit.
  destruct (Proof.Update.incremental_read decode rl file s r file' Hsv Ht Hx Hoff Hn Hw Hfit) as (off & sec & _ & E1 & E2 & _ & _ & _ & E6).
  exists off, sec. rewrite Hprev in E6. auto.
Qed.

(** *** a document for the cases: two objects *)
Definition C36_rl (n g : N) : res Z := Throw EGeneral.
Definition C36_decode (d : list (bytes * obj)) (b : bytes) : res bytes := Ok b.
Definition C36_trailer : list (bytes * obj) := [(str "Root", ORef 1 0)].
Definition C36_free : xentry * obj := ({| xnum := 0; xgen := 65535; xdata := KFree 0 |}, ONull).
Definition C36_catalog : obj := ODict [(str "Type", OName (str "Catalog"))].
Definition C36_used (n : N) (z : Z) : xentry := {| xnum := n; xgen := 0; xdata := KUsed z true |}.
Definition C36_document : list (xentry * obj) := [C36_free; (C36_used 1 0, C36_catalog); (C36_used 2 0, OInt 5)].
Definition C36_file : bytes := match write_tables PDF14 [(C36_document, C36_trailer)] with Ok f => f | _ => [] end.
Definition item (dirty : bool) (p : xentry * obj) : fentry := {| f_entry := fst p; f_object := snd p; f_dirty := dirty |}.
Definition offset_of (file : bytes) : Z := match last_xref_offset file with Ok z => z | _ => 0%Z end.
(** the opened document with object 2 changed to 6 *)
Definition C36_source : fsection :=
  {| f_offset := offset_of C36_file; f_items := [item false C36_free; item false (C36_used 1 15, C36_catalog); item true (C36_used 2 49, OInt 6)];
     f_trailer := set_size C36_trailer 3 |}.
Definition C36_file2 : bytes := match write_incremental C36_file [C36_source] with Ok f => f | _ => [] end.
(** opening a file and looking up an object *)
Definition lookup (file : bytes) (n : N) : res obj :=
  do off <- last_xref_offset file;;
  do c <- read_chain parser_dictionary C36_decode 9 file off;;
  match resolve_entry n 0 c with
  | None => Ok ONull
  | Some e => do '(_, _, o) <- load_entry parser_dictionary C36_rl file e;; Ok o
  end.

(** A second update, of object 1, loses the change of object 2: the file reads the original 5 again.  [s1] and [s0] are the sections of
    the updated file as it is opened again. *)
Definition C36_reopened : list fsection :=
  [{| f_offset := offset_of C36_file2; f_items := [item false C36_free; item false (C36_used 2 188, OInt 6)];
      f_trailer := [(str "Prev", OInt (offset_of C36_file)); (str "Root", ORef 1 0); (str "Size", OInt 2)] |};
   {| f_offset := offset_of C36_file; f_items := [item false C36_free; item true (C36_used 1 15, C36_catalog); item false (C36_used 2 49, OInt 5)];
      f_trailer := set_size C36_trailer 3 |}].
Theorem C36_second_update_refuted : exists c file3,
  read_chain parser_dictionary C36_decode 9 C36_file2 (offset_of C36_file2) = Ok c /\
  map (fun s => map f_entry (f_items s)) C36_reopened = map s_entries c /\ map f_trailer C36_reopened = map s_trailer c /\
  write_incremental C36_file2 C36_reopened = Ok file3 /\ lookup C36_file2 2 = Ok (OInt 6) /\ lookup file3 2 = Ok (OInt 5).
Proof.
  eexists. eexists. split; [vm_compute; reflexivity|]. split; [vm_compute; reflexivity|]. split; [vm_compute; reflexivity|]. split; [vm_compute; reflexivity|]. split; vm_compute; reflexivity.
Qed.

(** An incremental save without any change appends a section that leads nowhere: every object of the document becomes null. *)
Theorem C36_empty_update_refuted : exists s file',
  f_offset s = offset_of C36_file /\ (forall x, In x (f_items s) -> f_dirty x = false) /\ write_incremental C36_file [s] = Ok file' /\
  lookup C36_file 2 = Ok (OInt 5) /\ lookup file' 2 = Ok ONull /\ lookup file' 1 = Ok ONull.
Proof.
  exists {| f_offset := offset_of C36_file; f_items := [item false C36_free; item false (C36_used 1 15, C36_catalog); item false (C36_used 2 49, OInt 5)];
            f_trailer := set_size C36_trailer 3 |}.
  eexists. split; [reflexivity|]. split; [intros x [<-|[<-|[<-|[]]]]; reflexivity|]. split; [vm_compute; reflexivity|]. split; [vm_compute; reflexivity|]. split; vm_compute; reflexivity.
Qed.

(** A deleted object is still there after the incremental save (object 1 was changed, object 2 deleted). *)
Theorem C36_deletion_refuted : exists s file',
  s = release_item 2 0 {| f_offset := offset_of C36_file; f_items := [item false C36_free; item true (C36_used 1 15, C36_catalog); item false (C36_used 2 49, OInt 5)];
                          f_trailer := set_size C36_trailer 3 |} /\
  write_incremental C36_file [s] = Ok file' /\ lookup file' 2 = Ok (OInt 5).
Proof. eexists. eexists. split; [reflexivity|]. split; [vm_compute; reflexivity|]. vm_compute. reflexivity. Qed.

(** An object changed in an older and in a newer section is saved with the older state. *)
Theorem C36_older_change_wins_refuted : exists s1 s0 file',
  In (item true (C36_used 2 188, OInt 7)) (f_items s1) /\ In (item true (C36_used 2 49, OInt 6)) (f_items s0) /\
  write_incremental C36_file [s1; s0] = Ok file' /\ lookup file' 2 = Ok (OInt 6).
Proof.
  exists {| f_offset := offset_of C36_file; f_items := [item false C36_free; item true (C36_used 2 188, OInt 7)];
            f_trailer := [(str "Root", ORef 1 0); (str "Size", OInt 2)] |}, C36_source.
  eexists. split; [right; left; reflexivity|]. split; [right; right; left; reflexivity|]. split; [vm_compute; reflexivity|]. vm_compute. reflexivity.
Qed.

Lemma C36_trailer_writable : forall n, n < 100 -> writable (ODict (set_size C36_trailer n)).
Proof.
  intros n Hn. change (set_size C36_trailer n) with [(str "Root", ORef 1 0); (str "Size", OInt (Z.of_N n))]. apply w_dict.
  - repeat (constructor; cbn; try (apply kl_less; cbn; lia)).
  - repeat constructor; cbn; try discriminate; unfold is_byte; lia.
  - cbn. repeat (constructor; cbn; unfold is_byte; try lia).
Qed.
Lemma C36_catalog_writable : writable C36_catalog.
Proof.
  apply w_dict.
  - repeat (constructor; cbn; try (apply kl_less; cbn; lia)).
  - repeat constructor; cbn; try discriminate; unfold is_byte; lia.
  - cbn. repeat (constructor; cbn; unfold is_byte; try lia).
Qed.
Lemma C36_items_once : forall s, f_items s = [item false C36_free; item false (C36_used 1 15, C36_catalog); item true (C36_used 2 49, OInt 6)] ->
  changes_saveable entry_saveable storable [s] /\ changed_once [s] /\ exists x, In x (f_items s) /\ f_dirty x = true.
Proof.
  intros s E. split; [|split].
  - intros s' x [<-|[]] Hx Hd. rewrite E in Hx. destruct Hx as [<-|[<-|[<-|[]]]]; try discriminate Hd. cbn [item f_entry f_object xdata C36_used fst snd].
    split; [repeat split; cbn; lia|]. apply st_direct. apply w_int. lia.
  - intros c1 s1 c2 i1 x1 i2 Ec Ei Hd. destruct c1 as [|? [|? ?]]; inversion Ec; subst. rewrite E in Ei. split; [|intros ? ? []].
    destruct i1 as [|? [|? [|? ?]]]; inversion Ei; subst; try discriminate Hd; try (intros ? []). destruct l; discriminate.
  - rewrite E. exists (item true (C36_used 2 49, OInt 6)). split; [right; right; left; reflexivity|reflexivity].
Qed.
(** The hypotheses of the theorems hold of the example, and the saved change is read back. *)
Example C36_case : section_saveable (C36_document, C36_trailer) /\ (forall x, ~ In (str "Prev", x) C36_trailer) /\
  write_tables PDF14 [(C36_document, C36_trailer)] = Ok C36_file /\ last_xref_offset C36_file = Ok (f_offset C36_source) /\
  f_trailer C36_source = set_size C36_trailer (N.of_nat (List.length C36_document)) /\
  changes_saveable entry_saveable storable [C36_source] /\ changed_once [C36_source] /\ (exists x, In x (f_items C36_source) /\ f_dirty x = true) /\
  write_incremental C36_file [C36_source] = Ok C36_file2 /\ lookup C36_file2 2 = Ok (OInt 6) /\ lookup C36_file2 1 = Ok C36_catalog.
Proof.
  destruct (C36_items_once C36_source eq_refl) as (I1 & I2 & I3).
  split; [|split; [|split; [|split; [|split; [|split; [exact I1|split; [exact I2|split; [exact I3|split; [|split]]]]]]]]].
  - split; [cbn; repeat constructor; lia|]. split; [|split; [|split; [intros v [E|[]]; discriminate|cbn; lia]]].
    + cbn [fst]. apply Forall_cons; [|apply Forall_cons; [|apply Forall_cons; [|apply Forall_nil]]]; (split; [unfold entry_saveable; cbn [fst xnum xgen xdata C36_free C36_used]; repeat split; lia|]); cbn [fst snd].
      * discriminate.
      * intros _ _. apply st_direct. exact C36_catalog_writable.
      * intros _ _. apply st_direct. apply w_int. lia.
    + cbn [snd]. apply w_dict.
      * repeat (constructor; cbn; try (apply kl_less; cbn; lia)).
      * repeat constructor; cbn; try discriminate; unfold is_byte; lia.
      * cbn. repeat (constructor; cbn; unfold is_byte; try lia).
  - intros x [E|[]]. discriminate.
  - vm_compute. reflexivity.
  - vm_compute. reflexivity.
  - vm_compute. reflexivity.
  - vm_compute. reflexivity.
  - vm_compute. reflexivity.
  - vm_compute. reflexivity.
Qed.

Print Assumptions C21_sections_reopen.
Print Assumptions C36_update_recorded_partial.
Print Assumptions C36_saved_then_updated_partial.
Print Assumptions C36_compressed_edit_fails.
Print Assumptions C36_newest_section_skipped.
Print Assumptions C36_second_update_refuted.
Print Assumptions C36_empty_update_refuted.
Print Assumptions C36_deletion_refuted.
Print Assumptions C36_older_change_wins_refuted.

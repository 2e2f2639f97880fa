(** C36 for documents with a cross-reference stream: an incremental save of such a document, read again. *)
From Coq Require Import List NArith ZArith Bool Lia String Sorted.
From Verif.Model Require Import Base Char Numbers SMap Object Token Parser Arith Xref ObjStream StartXref Header FileWrite Chain Loading StreamFile StreamBody Update.
From Verif.Spec Require Import Strings Grammar Xref FileWrite Chain Update Loading StreamFile StreamUpdate.
From Verif.Proof Require Import StreamObj Tac Strings SMap FileWrite Loading StreamFile.
From Verif.Proof Require Update Chain StreamUpdate.
From Verif.Props Require Import Loading StreamFile.
Import ListNotations.
Local Open Scope N_scope.

(** A document saved with a cross-reference stream and any object streams, opened, changed and saved incrementally.  Opening the result
    finds the new table in front of the old section; the document keys are kept; and whatever a program asks for, changes and saves, in
    any order, it gets the new state of every object that was changed or added and the saved state of every other object, those in object
    streams included. *)
Theorem C36_stream_saved_then_updated_partial : forall supported encode decode rl v self hdr l file s file',
  codec supported encode decode -> document supported self hdr l -> fst self <> 0 -> sm_find (str "XRefStm") hdr = None ->
  write_stream_document encode v self hdr l = Ok file -> opened_section decode file s ->
  edits_of self l s -> changes_saveable entry_saveable storable [s] -> changed_once [s] -> (exists n, changed_number s n) ->
  N.of_nat (List.length (f_items s)) + 1 < 2 ^ 63 ->
  write_incremental file [s] = Ok file' -> (Z.of_nat (List.length file') < 2 ^ 63)%Z ->
  exists offset table entries m d start,
    (exists more, file' = file ++ more) /\ last_xref_offset file' = Ok offset /\
    (forall fuel, (2 <= fuel)%nat -> read_chain parser_dictionary decode fuel file' offset =
       Ok [ table; {| s_kind := SStream; s_entries := entries; s_hybrid := None; s_trailer := m |} ]) /\
    (forall k, In k [str "Root"; str "Info"; str "ID"; str "Encrypt"] -> sm_find k (s_trailer table) = sm_find k hdr) /\
    updated_objects self l s (OStream m d) start /\
    forall fuel ops, (2 <= fuel)%nat -> Forall (spares_streams [s_entries table; entries]) ops ->
      Forall2 answers (fst (lrun (object_at rl file' self (OStream m d)) (objects_in rl decode) fuel ops (opened [s_entries table; entries])))
        (fst (expected_all [s_entries table; entries] ops start)).
Proof.
  intros supported encode decode rl v self hdr l file s file' CD Dc Hs0 Hxs Hw (Hlast & sec & Hsec & Htr) Hed Hsv Hone (n0 & y0 & Hy0 & Hd0 & _) Hn Hi Hfit.
  assert (Hext : exists p, file' = file ++ p).
  { unfold write_incremental in Hi. apply rbind_ok in Hi. destruct Hi as ([t mm] & _ & Hi). apply rbind_ok in Hi. destruct Hi as ([o1 o2] & Hi & H2). apply Ok_inj in H2. subst o1.
    unfold append_section in Hi. apply rbind_ok in Hi. destruct Hi as (l1 & _ & Hi). destruct (write_objects None _ l1) as [body l2]. apply rbind_ok in Hi. destruct Hi as (tb & _ & Hi).
    apply Ok_inj in Hi. assert (E := f_equal fst Hi). cbn [fst] in E. rewrite <- app_assoc in E. eexists. symmetry. exact E. }
  destruct Hext as (p & Ep).
  assert (Hfit0 : (Z.of_nat (List.length file) < 2 ^ 63)%Z) by (rewrite Ep, app_length in Hfit; lia).
  destruct (stream_file_behind supported encode decode CD rl self hdr l Dc v file Hw Hfit0) as (off0 & E & m & d & A1 & A2 & A3 & A4 & A5 & A6 & A7 & A8 & A9 & A10 & A11).
  rewrite A2 in Hlast. apply Ok_inj in Hlast. subst off0. destruct (A11 []) as (B1 & _). rewrite app_nil_r in B1. specialize (A11 p). cbv zeta in A11. rewrite <- Ep in A11. destruct A11 as (A11 & Ord & Hmem & Hmiss & Hobjs).
  assert (Esec : sec = {| s_kind := SStream; s_entries := E; s_hybrid := None; s_trailer := m |}).
  { unfold read_chain in Hsec. cbn [read_sections] in Hsec. rewrite B1 in Hsec. cbn [rbind s_trailer] in Hsec. unfold sm_contains in Hsec. rewrite A6 in Hsec.
    cbn [app rbind read_hybrids s_kind move_virtual] in Hsec. apply Ok_inj in Hsec. congruence. }
  subst sec. cbn [s_trailer] in Htr.
  assert (Hxs' : forall w, ~ In (str "XRefStm", w) (f_trailer s)).
  { rewrite Htr. apply (Update.not_in_find _ _ A4 (str_bytes _)). rewrite A8; [exact Hxs|apply str_bytes|]. intros X. unfold own_keys in X. cbn [In] in X. decompose [or] X; try discriminate; auto. }
  assert (Hwt : writable (ODict (f_trailer s))) by (rewrite Htr; exact A4).
  destruct (Update.incremental_read decode rl file s [] file' Hsv Hwt Hxs' A3 ltac:(cbn [flat_map]; rewrite app_nil_r; exact Hn) Hi Hfit)
    as (offn & sec1 & _ & E1 & E2 & E3 & E4 & E5 & E6).
  rewrite Htr, A6 in E6.
  assert (Hany : existsb (fun s => Update.some_dirty (f_items s)) [s] = true).
  { cbn [existsb]. rewrite orb_false_r. unfold Update.some_dirty. apply existsb_exists. exists y0. split; assumption. }
  rewrite Hany in E6. destruct E3 as (T0 & T1 & T2 & T3).
  set (RA := object_at rl file' self (OStream m d)) in *. set (IN := objects_in rl decode) in *. set (L := Update.add_all (Update.changes [s]) [list_head]) in *.
  (* what the new table lists *)
  assert (HL : forall e o, In (e, o) L -> (e, o) = list_head \/ exists y, In y (f_items s) /\ f_dirty y = true /\ xnum e = xnum (f_entry y) /\ xgen e = xgen (f_entry y)).
  { intros e o Hin. apply Update.add_all_in in Hin. destruct Hin as [Hin|[<-|[]]]; [right|left; reflexivity]. unfold Update.changes in Hin. cbn [flat_map] in Hin. rewrite app_nil_r in Hin.
    apply in_flat_map in Hin. destruct Hin as (y & Hy & Hin). destruct (Update.change_num _ _ Hin) as (D1 & D2 & D3). cbn [fst] in *. exists y. auto. }
  assert (Hfind : forall n x, find (fun e => xnum e =? n) (s_entries sec1) = Some x <-> Spec.Chain.entry_of sec1 n x).
  { intros n x. rewrite <- Chain.sec_find_entry. unfold sec_find, xfind. rewrite T1, T0. destruct (find (fun e => xnum e =? n) (s_entries sec1)); split; intros X; try discriminate; exact X. }
  assert (Hlisted : forall n x, find (fun e => xnum e =? n) (s_entries sec1) = Some x -> exists e o, In (e, o) L /\ xnum e = n /\ xnum x = n /\ xgen x = xgen e /\
            match xdata e with
            | KUsed _ _ => exists at_ o', xdata x = KUsed at_ true /\ (0 <= at_)%Z /\ load_entry parser_dictionary rl file' {| xnum := xnum e; xgen := xgen e; xdata := KUsed at_ true |} = Ok (xnum e, xgen e, o') /\ same_object o o'
            | _ => xdata x = KFree 0 end).
  { intros n x Hx. assert (Hin := find_some _ _ Hx). destruct Hin as (Hin & Hxn). apply N.eqb_eq in Hxn.
    destruct (proj1 (T2 n) (ex_intro _ x (conj Hin Hxn))) as ([e o] & HinL & Een). cbn [fst] in Een. exists e, o. split; [exact HinL|]. split; [exact Een|]. split; [exact Hxn|].
    specialize (T3 e o HinL). rewrite Een in T3. destruct (xdata e) as [nx|at0 u|k i].
    - apply Hfind in T3. rewrite Hx in T3. injection T3 as ->. split; reflexivity.
    - destruct T3 as (at_ & o' & F1 & F0 & F2 & F3). apply Hfind in F1. rewrite Hx in F1. injection F1 as ->. split; [reflexivity|]. exists at_, o'. split; [reflexivity|]. split; [apply F0|]. rewrite Een. auto.
    - apply Hfind in T3. rewrite Hx in T3. injection T3 as ->. split; reflexivity. }
  set (c := [s_entries sec1; E]).
  (* numbers that are not in the new table *)
  assert (Hold : forall n g, ~ changed_number s n -> (n = 0 -> g <> 65535) -> entry_of c n g = entry_of [E] n g).
  { intros n g Hn1 Hn2. unfold c. cbn [entry_of]. destruct (find (fun e => xnum e =? n) (s_entries sec1)) as [x|] eqn:Hx; [|reflexivity].
    destruct (Hlisted _ _ Hx) as (e & o & HinL & Een & _ & Xg & _). destruct (HL _ _ HinL) as [Ehd|(y & Y1 & Y2 & Y3 & Y4)].
    - apply (f_equal fst) in Ehd. cbn [fst list_head] in Ehd. subst e. cbn [xnum xgen] in *. subst n. rewrite Xg. destruct (65535 =? g) eqn:Eg; [|reflexivity]. exfalso. apply N.eqb_eq in Eg. subst g. apply Hn2; reflexivity.
    - exfalso. apply Hn1. exists y. split; [exact Y1|]. split; [exact Y2|congruence]. }
  assert (Hnostream : forall k, is_object_stream l k -> ~ changed_number s k).
  { intros k Hk (y & Y1 & Y2 & <-). destruct (Hed y Y1 Y2) as (_ & _ & Hn3 & _). contradiction. }
  assert (Hnocomp : forall e o k i, In (e, o) l -> xdata e = KComp k i -> ~ changed_number s (xnum e)).
  { intros e o k i Hin Hd (y & Y1 & Y2 & Y3). destruct (Hed y Y1 Y2) as (_ & _ & _ & Hn3). destruct (Hn3 e o Hin ltac:(congruence)) as (_ & X). exact (X k i Hd). }
  assert (Hstr0 : forall k, entry_of c k 0 = entry_of [E] k 0 \/ changed_number s k).
  { intros k. destruct (find (fun e => xnum e =? k) (s_entries sec1)) as [x|] eqn:Hx; [|left; unfold c; cbn [entry_of]; rewrite Hx; reflexivity].
    destruct (Hlisted _ _ Hx) as (e & o & HinL & Een & _ & Xg & _). destruct (HL _ _ HinL) as [Ehd|(y & Y1 & Y2 & Y3 & Y4)]; [|right; exists y; split; [exact Y1|split; [exact Y2|congruence]]].
    left. apply (f_equal fst) in Ehd. cbn [fst list_head] in Ehd. subst e. cbn [xnum xgen] in *. unfold c. cbn [entry_of]. rewrite Hx, Xg. reflexivity. }
  assert (Hkeep : forall k, is_object_stream l k -> forall t, stream_holds c RA IN k t <-> stream_holds [E] RA IN k t).
  { intros k Hk t. destruct (Hstr0 k) as [X|X]; [|exfalso; exact (Hnostream k Hk X)]. unfold stream_holds. rewrite X. reflexivity. }
  (* entries of the whole chain *)
  assert (Hcase : forall n g x, entry_of c n g = Some x -> (find (fun e => xnum e =? n) (s_entries sec1) = Some x /\ xgen x = g) \/ entry_of [E] n g = Some x).
  { intros n g x. unfold c. cbn [entry_of]. destruct (find (fun e => xnum e =? n) (s_entries sec1)) as [x'|]; [|auto]. destruct (xgen x' =? g) eqn:Eg; [|auto].
    intros X. injection X as ->. left. split; [reflexivity|apply N.eqb_eq, Eg]. }
  assert (Hnewkind : forall n x k i, find (fun e => xnum e =? n) (s_entries sec1) = Some x -> xdata x <> KComp k i).
  { intros n x k i Hx. destruct (Hlisted _ _ Hx) as (e & o & _ & _ & _ & _ & X). destruct (xdata e); [congruence| |congruence]. destruct X as (at_ & o' & X & _). congruence. }
  assert (HinE : forall n g x, entry_of [E] n g = Some x -> In x E /\ xnum x = n /\ xgen x = g) by (intros n g x; apply (proj1 (entry_single E n g x A5))).
  assert (Hobjstm : forall k, object_stream c k -> is_object_stream l k).
  { intros k (t & x & i & [<-|[<-|[]]] & Hx & Hd); [|apply A9; exists E, x, i; repeat split; [left; reflexivity|exact Hx|exact Hd]].
    exfalso. assert (P := StreamUpdate.section_plain _ _ _ _ _ _ _ (E2 []) T0). rewrite Forall_forall in P. specialize (P x Hx). unfold StreamUpdate.plain in P. rewrite Hd in P. exact P. }
  assert (Hself : forall x n, find (fun e => xnum e =? n) (s_entries sec1) = Some x -> (exists a u, xdata x = KUsed a u) -> n <> fst self).
  { intros x n Hx (a & u & Hd) ->. destruct (Hlisted _ _ Hx) as (e & o & HinL & Een & _ & _ & X). destruct (HL _ _ HinL) as [Ehd|(y & Y1 & Y2 & Y3 & Y4)].
    - apply (f_equal fst) in Ehd. cbn [fst list_head] in Ehd. subst e. cbn [xdata] in X. congruence.
    - destruct (Hed y Y1 Y2) as (_ & Z & _). apply Z. congruence. }
  assert (Hnewread : forall n x, find (fun e => xnum e =? n) (s_entries sec1) = Some x -> forall a u, xdata x = KUsed a u -> (0 <= a)%Z /\ exists e o o', In (e, o) L /\ xnum e = n /\ xgen e = xgen x /\ RA n (xgen x) a = Ok o' /\ same_object o o').
  { intros n x Hx a u Hd. destruct (Hlisted _ _ Hx) as (e & o & HinL & Een & _ & Xg & X). destruct (xdata e) as [|a0 u0|]; [congruence| |congruence].
    destruct X as (at_ & o' & X1 & X2 & X3 & X4). rewrite X1 in Hd. injection Hd as -> _. split; [exact X2|]. exists e, o, o'. split; [exact HinL|]. split; [exact Een|]. split; [congruence|]. split; [|exact X4].
    unfold RA, object_at. assert (Z := Hself _ _ Hx (ex_intro _ a (ex_intro _ true X1))). replace (n =? fst self) with false by lia. cbn [andb]. rewrite Een in X3. rewrite Xg. rewrite X3. reflexivity. }
  assert (Ord' : orderly c RA IN).
  { constructor.
    - intros n g x off u Hx Hd. destruct (Hcase _ _ _ Hx) as [(Hf & Hg)|Hx'].
      + destruct (Hnewread _ _ Hf _ _ Hd) as (Ha & e & o & o' & _ & _ & _ & Hr & _). split; [lia|]. exists o'. rewrite <- Hg. exact Hr.
      + exact (or_readable _ _ _ Ord _ _ _ _ _ Hx' Hd).
    - intros k Hk. assert (Hk' := Hobjstm k Hk). destruct Hk' as (ec & oc & ic & Hc & Edc).
      assert (HkE : object_stream [E] k).
      { destruct Hk as (t & x & i & [<-|[<-|[]]] & Hx & Hd); [|exists E, x, i; repeat split; [left; reflexivity|exact Hx|exact Hd]].
        exfalso. assert (P := StreamUpdate.section_plain _ _ _ _ _ _ _ (E2 []) T0). rewrite Forall_forall in P. specialize (P x Hx). unfold StreamUpdate.plain in P. rewrite Hd in P. exact P. }
      destruct (or_streams _ _ _ Ord k HkE) as (t & H1 & H2 & H3). exists t. split; [apply (Hkeep k ltac:(exists ec, oc, ic; auto)), H1|]. split; [exact H2|].
      intros n o Hin. destruct (H3 n o Hin) as (e & He & Hk2). destruct (Hstr0 n) as [X|X]; [exists e; rewrite X; auto|].
      exfalso. destruct (Hmem k t n o ltac:(exists ec, oc, ic; auto) H1 Hin) as (e' & i' & M1 & M2 & M3). apply (Hnocomp e' o k i' M1 M3). rewrite M2. exact X.
    - intros n g x k i Hx Hd. destruct (Hcase _ _ _ Hx) as [(Hf & _)|Hx']; [exfalso; exact (Hnewkind _ _ _ _ Hf Hd)|].
      destruct (or_listed _ _ _ Ord _ _ _ _ _ Hx' Hd) as (Hg & Hl). split; [exact Hg|]. intros t Ht. apply Hl. apply (Hkeep k); [|exact Ht].
      apply A9. destruct (HinE _ _ _ Hx') as (I1 & _). exists E, x, i. repeat split; [left; reflexivity|exact I1|exact Hd]. }
  assert (Hlo := lookup_original c RA IN Ord'). assert (Hun := fun n g o o' => Loading.orig_unique c RA IN Ord' n g o o').
  (* the object of a number that is not in the new table *)
  assert (Hsame : forall n g o, ~ changed_number s n -> (n = 0 -> g <> 65535) -> original [E] RA IN n g o -> original c RA IN n g o).
  { intros n g o Hn1 Hn2 Ho. assert (X := Hold n g Hn1 Hn2). destruct Ho as [Ho|x next Ho Hd|x a u o Ho Hd Hr|x k i t o Ho Hd Hs Hin]; rewrite <- X in Ho.
    - apply or_missing; exact Ho.
    - eapply or_free; eauto.
    - eapply or_used; eauto.
    - eapply or_stream; [exact Ho|exact Hd| |exact Hin]. apply Hkeep; [|exact Hs]. rewrite X in Ho. destruct (HinE _ _ _ Ho) as (I1 & _). apply A9. exists E, x, i. repeat split; [left; reflexivity|exact I1|exact Hd]. }
  exists offn, sec1, E, m, d, (lookup c RA IN). split; [exists p; exact Ep|]. split; [exact E1|]. split; [|split; [|split]].
  - intros f Hf. unfold read_chain. assert (R : read_sections parser_dictionary decode f file' [] offn = Ok [sec1; {| s_kind := SStream; s_entries := E; s_hybrid := None; s_trailer := m |}]).
    { destruct f as [|[|f]]; [lia|lia|]. cbn [read_sections]. rewrite E2. cbn [rbind app]. unfold sm_contains, find_int. rewrite E6. cbn [int_value rbind].
      rewrite A11. cbn [rbind s_trailer app]. rewrite A6. reflexivity. }
    rewrite R. cbn [rbind]. rewrite Update.hybrids_none.
    + cbn [app rbind move_virtual]. rewrite T0. reflexivity.
    + intros sc [<-|[<-|[]]]; [exact E4|]. cbn [s_trailer]. rewrite A8; [exact Hxs|apply str_bytes|]. intros X. unfold own_keys in X. cbn [In] in X. decompose [or] X; try discriminate; auto.
  - intros k Hk. rewrite (E5 k Hk), Htr. cbn [In] in Hk. apply A8.
    + destruct Hk as [<-|[<-|[<-|[<-|[]]]]]; apply str_bytes.
    + intros X. unfold own_keys in X. cbn [In] in X. destruct Hk as [<-|[<-|[<-|[<-|[]]]]]; decompose [or] X; try discriminate; auto.
  - split; [|split; [|split; [|split]]].
    + intros e o Hch. assert (Hin := Update.changed_listed _ e o Hone Hch). fold L in Hin. specialize (T3 e o Hin). destruct Hch as (s' & o0 & _ & Hd & _). rewrite Hd in T3.
      destruct T3 as (at_ & o' & F1 & _ & F2 & F3). apply Hfind in F1.
      destruct (Hnewread _ _ F1 at_ true eq_refl) as (_ & e1 & o1 & o1' & _ & _ & _ & Hr & _). cbn [xgen] in Hr.
      assert (o1' = o').
      { unfold RA, object_at in Hr. assert (Z := Hself _ _ F1 (ex_intro _ at_ (ex_intro _ true eq_refl))). replace (xnum e =? fst self) with false in Hr by lia. cbn [andb] in Hr.
        rewrite F2 in Hr. cbn [rbind] in Hr. apply Ok_inj in Hr. congruence. }
      subst o1'. assert (Ho : original c RA IN (xnum e) (xgen e) o').
      { apply (or_used c RA IN (xnum e) (xgen e) {| xnum := xnum e; xgen := xgen e; xdata := KUsed at_ true |} at_ true o'); [|reflexivity|exact Hr]. unfold c. cbn [entry_of]. rewrite F1. cbn [xgen]. rewrite N.eqb_refl. reflexivity. }
      rewrite (Hun _ _ _ _ (Hlo _ _) Ho). exact F3.
    + intros n g Hno Hch. apply (Hun n g); [apply Hlo|]. destruct (N.eq_dec n 0) as [->|Hn0]; [|apply Hsame; [exact Hch|congruence|apply Hmiss, Hno]].
      destruct (N.eq_dec g 65535) as [->|Hg0]; [|apply Hsame; [exact Hch|intros _; exact Hg0|apply Hmiss, Hno]].
      destruct (entry_of c 0 65535) as [x|] eqn:Hx; [|apply or_missing; exact Hx]. destruct (Hcase _ _ _ Hx) as [(Hf & _)|Hx'].
      * destruct (Hlisted _ _ Hf) as (e & o & HinL & Een & _ & _ & X). destruct (HL _ _ HinL) as [Ehd|(y & Y1 & Y2 & Y3 & Y4)].
        -- apply (f_equal fst) in Ehd. cbn [fst list_head] in Ehd. subst e. cbn [xdata] in X. eapply or_free; [exact Hx|exact X].
        -- exfalso. apply Hch. exists y. split; [exact Y1|]. split; [exact Y2|congruence].
      * exfalso. destruct (HinE _ _ _ Hx') as (I1 & I2 & I3). destruct (A10 x I1) as (e & o & M1 & M2 & M3). apply (Hno e o M1). congruence.
    + destruct (dc_self _ _ _ _ Dc) as (o & off & Hs). assert (Hobj := Hobjs _ _ Hs). cbn [xdata xnum xgen] in Hobj. destruct self as [sn sg]. cbn [fst snd is_self xnum xgen] in *.
      rewrite !N.eqb_refl in Hobj. cbn [andb] in Hobj. apply (Hun sn sg); [apply Hlo|]. apply Hsame; [|congruence|exact Hobj].
      intros (y & Y1 & Y2 & Y3). destruct (Hed y Y1 Y2) as (_ & Z & _). exact (Z Y3).
    + intros e o Hin He He0 Hch. specialize (Hobjs e o Hin). destruct (xdata e).
      * eapply Hun; [apply Hlo|]. apply Hsame; [exact Hch|congruence|exact Hobjs].
      * intros Hns. destruct (is_self (Some self) e) eqn:Es; [exfalso; apply He; apply (proj1 (self_spec self e)); exact Es|]. destruct Hobjs as (o' & Ho & Hso & _).
        rewrite (Hun _ _ _ _ (Hlo _ _) (Hsame _ _ _ Hch ltac:(congruence) Ho)). apply Hso, Hns.
      * eapply Hun; [apply Hlo|]. apply Hsame; [exact Hch|congruence|exact Hobjs].
    + intros k Hk. assert (Hk' := Hk). destruct Hk' as (ec & oc & ic & Hc & Ed). destruct (dc_entries _ _ _ _ Dc _ _ Hc) as (_ & _ & C). rewrite Ed in C.
      destruct C as (_ & _ & _ & Cs & m1 & d1 & (off & Hu) & _). specialize (Hobjs _ _ Hu). cbn [xdata xnum xgen] in Hobjs.
      destruct (is_self (Some self) _) eqn:Es; [exfalso; apply Cs; apply (proj1 (self_spec self _)) in Es; cbn [xnum xgen] in Es; rewrite <- Es; reflexivity|].
      destruct Hobjs as (o' & Ho & _ & Hst). destruct (Hst Hk) as (m1' & d1' & m2 & d2 & X & -> & Hf). injection X as <- <-. exists m1, d1, m2, d2.
      split; [exists off; exact Hu|]. split; [apply (Hun k 0); [apply Hlo|apply Hsame; [apply Hnostream, Hk|discriminate|exact Ho]]|]. intros x Hx Hnn. cbn [In] in Hnn. apply Hf; [exact Hx|intros X; apply Hnn; auto..].
  - intros fuel ops Hf Hops. destruct (C65_reads_partial c RA IN Ord') as (_ & R). specialize (R _ Hlo fuel ops Hf Hops). fold c RA. destruct (lrun RA IN fuel ops (opened c)) as [results st]. apply R.
Qed.

(** The document of C21_stream_file_case: object 1 becomes a number and object 9 is new. *)
Definition c36_encode := encode_in_memory c21_deflate c21_inflate.
Definition c36_file : bytes := match write_stream_document c36_encode PDF15 (8, 0) c21_header c21_document with Ok f => f | _ => [] end.
Definition c36_offset : Z := match last_xref_offset c36_file with Ok z => z | _ => 0%Z end.
Definition c36_trailer : list (bytes * obj) :=
  match read_chain parser_dictionary (decode_plain c21_inflate) 1 c36_file c36_offset with Ok [sec] => s_trailer sec | _ => [] end.
Definition c36_item (dirty : bool) (p : xentry * obj) : fentry := {| f_entry := fst p; f_object := snd p; f_dirty := dirty |}.
Definition c36_section : fsection :=
  {| f_offset := c36_offset;
     f_items := c36_item true ({| xnum := 1; xgen := 0; xdata := KUsed 15 true |}, OInt 42) ::
                c36_item true ({| xnum := 9; xgen := 0; xdata := KUsed (-1) true |}, ORef 2 0) :: map (c36_item false) c21_document;
     f_trailer := c36_trailer |}.
Example C36_stream_case : sm_find (str "XRefStm") c21_header = None /\
  write_stream_document c36_encode PDF15 (8, 0) c21_header c21_document = Ok c36_file /\ opened_section (decode_plain c21_inflate) c36_file c36_section /\
  edits_of (8, 0) c21_document c36_section /\ changes_saveable entry_saveable storable [c36_section] /\ changed_once [c36_section] /\ changed_number c36_section 9 /\
  exists file', write_incremental c36_file [c36_section] = Ok file' /\ (Z.of_nat (List.length file') < 2 ^ 63)%Z.
Proof.
  assert (Hdirty : forall y, In y (f_items c36_section) -> f_dirty y = true -> y = c36_item true ({| xnum := 1; xgen := 0; xdata := KUsed 15 true |}, OInt 42) \/
    y = c36_item true ({| xnum := 9; xgen := 0; xdata := KUsed (-1) true |}, ORef 2 0)).
  { intros y [<-|[<-|Hy]] Hd; [auto|auto|]. apply in_map_iff in Hy. destruct Hy as (x & <- & _). discriminate Hd. }
  split; [reflexivity|]. split; [vm_compute; reflexivity|]. split; [|split; [|split; [|split; [|split]]]].
  - split; [vm_compute; reflexivity|].
    exists (match read_chain parser_dictionary (decode_plain c21_inflate) 1 c36_file c36_offset with Ok [sec] => sec | _ => empty_table end).
    split; vm_compute; reflexivity.
  - intros y Hy Hd. destruct (Hdirty y Hy Hd) as [->| ->]; cbn [c36_item f_entry fst xnum xgen]; (split; [discriminate|]); (split; [discriminate|]); split.
    1, 3: intros (e & o & i & Hin & He); unfold c21_document in Hin; cbn [In] in Hin;
      repeat (destruct Hin as [X|Hin]; [apply pair_equal_spec in X; destruct X as [<- _]; cbn [xdata] in He; discriminate He|]); destruct Hin.
    all: intros e o Hin He; unfold c21_document in Hin; cbn [In] in Hin;
      repeat (destruct Hin as [X|Hin]; [apply pair_equal_spec in X; destruct X as [<- _]; cbn [xnum] in He; try discriminate He; (split; [reflexivity|intros k i X2; discriminate X2])|]); destruct Hin.
  - intros s' x [<-|[]] Hx Hd. destruct (Hdirty x Hx Hd) as [->| ->]; cbn [c36_item f_entry f_object fst snd xdata]; (split; [repeat split; cbn; lia|]); apply st_direct; constructor; lia.
  - intros c1 s1 c2 i1 x1 i2 Ec Ei Hd. destruct c1 as [|? [|? ?]]; [|discriminate Ec..]. apply (f_equal (hd c36_section)) in Ec as E1. cbn [app hd] in E1. subst s1. apply (f_equal (@tl _)) in Ec. cbn [app tl] in Ec. subst c2.
    split; [|intros ? ? []]. intros x2 Hx2 Hd2. unfold c36_section in Ei. cbn [f_items] in Ei. destruct i1 as [|a [|b i1]]; cbn [app] in Ei.
    + apply (f_equal (@tl _)) in Ei as Et. apply (f_equal (hd x1)) in Ei. cbn [hd tl] in Ei, Et. subst x1 i2. destruct Hx2 as [<-|Hx2]; [discriminate|]. apply in_map_iff in Hx2. destruct Hx2 as (z & <- & _). discriminate Hd2.
    + apply (f_equal (fun z => tl (tl z))) in Ei. cbn [tl] in Ei. subst i2. apply in_map_iff in Hx2. destruct Hx2 as (z & <- & _). discriminate Hd2.
    + exfalso. apply (f_equal (fun z => tl (tl z))) in Ei. cbn [tl] in Ei. assert (Hin : In x1 (map (c36_item false) c21_document)) by (rewrite Ei; apply in_or_app; right; left; reflexivity).
      apply in_map_iff in Hin. destruct Hin as (z & <- & _). discriminate Hd.
  - eexists. split; [right; left; reflexivity|]. split; reflexivity.
  - exists (match write_incremental c36_file [c36_section] with Ok f => f | _ => [] end). split; vm_compute; reflexivity.
Qed.

Print Assumptions C36_stream_saved_then_updated_partial.

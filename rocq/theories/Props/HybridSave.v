(** C61 (hybrid-reference files): a hybrid-reference file saved with the default settings is, when opened again, the same document. *)
From Coq Require Import List NArith ZArith Bool Lia String Sorted Permutation.
From Verif.Model Require Import Base SMap Object Equality Token Parser Xref Header FileWrite StartXref Chain Merge Unreferenced Duplicates Save Loading StreamFile SaveStream HybridSave.
From Verif.Spec Require Import Strings Grammar Xref FileWrite Chain Merge Unreferenced Equality Duplicates Save Loading StreamFile SaveStream HybridSave.
From Verif.Proof Require Import Tac Strings StreamObj SMap FileWrite Unreferenced Save SaveStream HybridSave Resave.
From Verif.Props Require Import Save StreamFile SaveStream.
From Verif.Props Require Duplicates.
Import ListNotations.
Local Open Scope N_scope.

(** Looking up an object in a hybrid-reference file is looking it up in the file with every hybrid stream as a section behind its
    table, unless a table and its hybrid stream list the same number. *)
Theorem C61_hybrid_lookup : forall content dict c n g, Forall apart c ->
  document_objects content c n g = document_objects content (spread dict c) n g.
Proof. exact spread_objects. Qed.

(** For every hybrid-reference file, with any number of updates, tables, hybrid streams and streams: the file that is written opens, has
    the version that was asked for, and its Root, Info and ID look the same at any depth as those of the document.  Whatever a program
    asks for, changes and saves, in any order, it gets these objects.  The conditions are those of C61_stream_save_partial for the
    sections with the hybrid streams behind their tables. *)
Theorem C61_hybrid_save_partial : forall real hash content order arrange supported encode decode rl stream_of dict v self base newest older file,
  let c := newest :: older in let f := document_objects content c in
  any_order order -> any_arrangement arrange -> codec supported encode decode -> Forall apart c ->
  pure_sections (spread dict c) -> oldest_stream (spread dict c) base -> nothing_deleted (spread dict c) ->
  (Z.of_nat (S (List.length (flat_map s_entries (spread dict c)))) <= 2147483647)%Z ->
  stores_objects f -> no_loose_reference f (ODict (s_trailer newest)) -> hashes_steady real hash f ->
  compressed_document supported content (spread dict c) self base newest ->
  (forall items self', optimize_hybrid real hash content order arrange dict self c = Ok (items, self') -> text_fits items) ->
  save_hybrid_file real hash content order arrange encode stream_of dict v self c = Ok file -> (Z.of_nat (List.length file) < 2 ^ 63)%Z ->
  exists offset entries m d self' start,
    read_header file = Ok v /\ last_xref_offset file = Ok offset /\
    (forall fuel, read_chain parser_dictionary decode (S fuel) file offset =
       Ok [ {| s_kind := SStream; s_entries := entries; s_hybrid := None; s_trailer := m |} ]) /\
    (forall key, In key [str "Root"; str "Info"; str "ID"] ->
      match sm_find key (s_trailer newest), sm_find key m with
      | Some a, Some b => same_document real f start a b
      | None, None => True
      | _, _ => False
      end) /\
    forall fuel ops, (2 <= fuel)%nat -> Forall (spares_streams [entries]) ops ->
      Forall2 answers (fst (lrun (object_at rl file self' (OStream m d)) (objects_in rl decode) fuel ops (opened [entries])))
        (fst (expected_all [entries] ops start)).
Proof.
  intros real hash content order arrange supported encode decode rl stream_of dict v self base newest older file c f Hord Harr Hcd Hap Hpure Hold Hnd Hcount Hst Hloose Hsteady Hcp Htext Hsave Hlen.
  assert (Ef : forall n g, f n g = document_objects content (spread dict c) n g) by (intros n g; apply spread_objects; exact Hap).
  assert (Es : exists rest, spread dict c = bare newest :: rest) by (unfold spread, c; cbn [flat_map]; unfold spread_section at 1; eexists; reflexivity).
  destruct Es as (rest & Es).
  unfold save_hybrid_file in Hsave. apply rbind_ok in Hsave. destruct Hsave as (u & _ & Hsave). unfold c in Hsave, Htext.
  rewrite (optimize_spread real hash content order arrange dict self newest older Hap) in Hsave.
  assert (Htext' : forall items self', optimize_stream real hash content order arrange self (spread dict c) = Ok (items, self') -> text_fits items).
  { intros items self' H. apply (Htext items self'). rewrite (optimize_spread real hash content order arrange dict self newest older Hap). exact H. }
  assert (Hst' : stores_objects (document_objects content (spread dict c))) by (intros n g; rewrite <- Ef; apply Hst).
  assert (Hloose' : no_loose_reference (document_objects content (spread dict c)) (ODict (s_trailer newest))).
  { intros n g H. rewrite <- Ef. apply Hloose. destruct H as [H|(m & gm & H)]; [left; exact H|right; exists m, gm; rewrite Ef; exact H]. }
  assert (Hsteady' : hashes_steady real hash (document_objects content (spread dict c))).
  { intros n g. destruct (Hsteady n g) as [H|(m & d & H1 & H2)]; [left; rewrite <- Ef; exact H|]. right. exists m, d. rewrite <- Ef. split; [exact H1|].
    intros n' g' m' H. apply (H2 n' g' m'). rewrite Ef. exact H. }
  fold c in Hsave. rewrite Es in Hpure, Hold, Hnd, Hcount, Hcp, Hst', Hloose', Hsteady', Htext', Hsave.
  destruct (C61_stream_save_partial real hash content order arrange supported encode decode rl v self base (bare newest) rest file
    Hord Harr Hcd Hpure Hold Hnd Hcount Hst' Hloose' Hsteady') as (offset & entries & m & d & self' & start & A1 & A2 & A3 & A4 & A5).
  - destruct Hcp. constructor; assumption.
  - exact Htext'.
  - exact Hsave.
  - exact Hlen.
  - exists offset, entries, m, d, self', start. split; [exact A1|]. split; [exact A2|]. split; [exact A3|]. split; [|exact A5].
    intros key Hkey. specialize (A4 key Hkey). cbn [bare s_trailer] in A4.
    destruct (sm_find key (s_trailer newest)) as [a|], (sm_find key m) as [b|]; try exact A4.
    intros k. eapply resembles_same_store; [|apply A4]. intros n g. symmetry. rewrite Ef, Es. reflexivity.
Qed.

(** A hybrid-reference file whose hybrid stream is itself not listed in a table cannot be saved: the newest hybrid stream is looked for in
    the tables and streams of the chain alone. *)
Theorem C61_hybrid_unlisted_refuted : forall real hash content order arrange encode stream_of dict v self newer s older h,
  (forall x, In x newer -> s_kind x = STable -> s_hybrid x = None) -> s_kind s = STable -> s_hybrid s = Some h ->
  (forall x e, In x (newer ++ s :: older) -> In e (s_entries x) -> xnum e <> fst (stream_of s)) ->
  save_hybrid_file real hash content order arrange encode stream_of dict v self (newer ++ s :: older) = Throw EObjectMissing.
Proof.
  intros real hash content order arrange encode stream_of dict v self newer s older h Hn Hk Hh Hl. unfold save_hybrid_file.
  rewrite (unlisted_throws content stream_of [] newer s older h); [reflexivity| |exact Hk|exact Hh|exact Hl|constructor].
  apply Forall_forall. intros x Hx. unfold plain. specialize (Hn x Hx). destruct (s_kind x), (s_hybrid x); try exact I. discriminate (Hn eq_refl).
Qed.

(** *** A concrete document: the table lists objects 5, 7, 8, 9 and 11; objects 1, 2 and 4 are hidden in the object stream 7, which the
    hybrid stream 8 says.  An update replaced object 2.  Objects 9 and 11 are equal, 5 is not used. *)
Definition hybrid_base : section :=
  {| s_kind := STable;
     s_entries := {| xnum := 0; xgen := 65535; xdata := KFree 0 |} :: map (fun n => {| xnum := n; xgen := 0; xdata := KUsed (Z.of_N n) true |}) [5; 7; 8; 9; 11];
     s_hybrid := Some [ {| xnum := 1; xgen := 0; xdata := KComp 7 0 |}; {| xnum := 2; xgen := 0; xdata := KComp 7 1 |}; {| xnum := 4; xgen := 0; xdata := KComp 7 2 |} ];
     s_trailer := [(str "Root", ORef 1 0); (str "Size", OInt 12); (str "XRefStm", OInt 8)] |}.
Definition hybrid_newest : section :=
  {| s_kind := STable; s_entries := [{| xnum := 2; xgen := 0; xdata := KUsed 700 true |}]; s_hybrid := None;
     s_trailer := [(str "Info", ORef 4 0); (str "Prev", OInt 8); (str "Root", ORef 1 0); (str "Size", OInt 13)] |}.
Definition hybrid_dict (_ : section) : header :=
  [(str "Filter", OName (str "FlateDecode")); (str "Size", OInt 12); (str "Type", OName (str "XRef"))].
Definition hybrid_content (e : xentry) : obj :=
  match xnum e, xdata e with
  | 8, _ => OStream (hybrid_dict hybrid_base) (str "y")
  | 12, _ => ONull
  | _, _ => stream_content e
  end.
Definition hybrid_document : chain := [hybrid_newest; hybrid_base].
Definition hybrid_stream : section := nth 2 (spread hybrid_dict hybrid_document) hybrid_base.

Example C61_hybrid_case : exists file items self',
  let f := document_objects hybrid_content hybrid_document in let u := spread hybrid_dict hybrid_document in
  Forall apart hybrid_document /\ pure_sections u /\ oldest_stream u hybrid_stream /\ nothing_deleted u /\
  stores_objects f /\ no_loose_reference f (ODict (s_trailer hybrid_newest)) /\ hashes_steady any_real Duplicates.plain_hash f /\
  compressed_document flate_only hybrid_content u (8, 0) hybrid_stream hybrid_newest /\
  optimize_hybrid any_real Duplicates.plain_hash hybrid_content by_number as_listed hybrid_dict (8, 0) hybrid_document = Ok (items, self') /\ text_fits items /\
  save_hybrid_file any_real Duplicates.plain_hash hybrid_content by_number as_listed (encode_in_memory c21_deflate c21_inflate) (fun _ => (8, 0)) hybrid_dict PDF15 (8, 0) hybrid_document = Ok file /\
  (Z.of_nat (List.length file) < 2 ^ 63)%Z /\ self' = (5, 0) /\ map (fun p => xnum (fst p)) items = [0; 1; 2; 3; 4; 5; 6].
Proof.
  destruct (save_hybrid_file any_real Duplicates.plain_hash hybrid_content by_number as_listed (encode_in_memory c21_deflate c21_inflate) (fun _ => (8, 0)) hybrid_dict PDF15 (8, 0) hybrid_document) as [file| | |] eqn:E;
    [|vm_compute in E; discriminate..].
  destruct (optimize_hybrid any_real Duplicates.plain_hash hybrid_content by_number as_listed hybrid_dict (8, 0) hybrid_document) as [[items self']| | |] eqn:Eo; [|vm_compute in Eo; discriminate..].
  exists file, items, self'. cbv zeta.
  assert (Hap : Forall apart hybrid_document).
  { constructor; [|constructor; [|constructor]]; intros h e e' Eh He He'; cbn [hybrid_newest hybrid_base s_hybrid] in Eh; try discriminate Eh. injection Eh as <-.
    one_of He; subst e; one_of He'; subst e'; discriminate. }
  set (u := spread hybrid_dict hybrid_document) in *.
  assert (Hh : forall s, In s u -> s_hybrid s = None) by (intros s Hs; one_of Hs; subst s; reflexivity).
  assert (Hcase' : forall P : N -> N -> obj -> Prop, (forall n g, P n g ONull) -> (forall s e, In s u -> In e (s_entries s) -> P (xnum e) (xgen e) (hybrid_content e)) ->
            forall n g, P n g (document_objects hybrid_content u n g)) by (intros P A B; apply document_cases; assumption).
  assert (Hcase : forall P : N -> N -> obj -> Prop, (forall n g, P n g ONull) -> (forall s e, In s u -> In e (s_entries s) -> P (xnum e) (xgen e) (hybrid_content e)) ->
            forall n g, P n g (document_objects hybrid_content hybrid_document n g)).
  { intros P A B n g. rewrite (spread_objects hybrid_content hybrid_dict hybrid_document n g Hap). apply Hcase'; assumption. }
  assert (Hos : forall n, object_stream u n -> n = 7).
  { intros n (m & g & e & i & Hr & Hx). destruct (resolved_in _ _ _ _ Hh Hr) as (s & Hs & He & _). each Hs He; cbn in Hx; try discriminate Hx; injection Hx; congruence. }
  split; [exact Hap|].
  split; [|split; [|split; [|split; [|split; [|split; [|split; [|split; [reflexivity|split; [|split; [reflexivity|split; [|]]]]]]]]]]].
  - intros s Hs. one_of Hs; subst s; (split; [reflexivity|]); (split; [repeat constructor; cbn; intuition discriminate|]);
      intros e He; one_of He; subst e; cbn [xgen xdata]; repeat split; try discriminate; reflexivity.
  - exists [bare hybrid_newest; bare hybrid_base], []. split; [reflexivity|]. split; [reflexivity|intros s []].
  - intros newer s older e s' e' Ec He Hn Hs' He' En Hd. destruct newer as [|x newer].
    + injection Ec as <- <-. one_of Hs'; subst s'; one_of He; subst e; one_of He'; subst e'; try discriminate En; split; reflexivity || exact I.
    + apply (f_equal (@tl _)) in Ec. cbn [tl app] in Ec. destruct newer as [|y newer].
      * injection Ec as <- <-. one_of Hs'; subst s'; one_of He; subst e; one_of He'; subst e'; try discriminate En; split; reflexivity || exact I.
      * apply (f_equal (@tl _)) in Ec. cbn [tl app] in Ec. destruct newer as [|z newer]; [injection Ec as <- <-; destruct Hs'|]. apply (f_equal (@tl _)) in Ec. destruct newer; discriminate.
  - intros n g. apply (Hcase (fun _ _ o => storable o /\ forall n' g', o <> ORef n' g')).
    + split; [apply st_direct; constructor|discriminate].
    + intros s e Hs He. each Hs He; (split; [|discriminate]); cbn [hybrid_content stream_content xnum xdata map Z.of_N];
      match goal with
      | |- storable (OStream _ _) => apply st_stream; [wdict|intros v Hv; unfold stream_of_objects, hybrid_dict in Hv; cbn [In] in Hv; repeat (destruct Hv as [Hv|Hv]; [discriminate Hv|]); destruct Hv|reflexivity]
      | |- storable ONull => apply st_direct; constructor
      | |- _ => solve [write_it]
      end.
  - intros n g [H|(m & gm & H)].
    + apply refs_mentions in H. cbn in H. one_of H; injection H as <- <-; discriminate.
    + revert n g H. apply (Hcase (fun _ _ o => forall n g, mentions n g o -> document_objects hybrid_content hybrid_document n g <> ONull)).
      * intros n0 g0 n g H. inversion H.
      * intros s e Hs He n g H. apply refs_mentions in H. each Hs He; one_of H; injection H as <- <-; discriminate.
  - intros n g. apply (Hcase (fun n g o =>
      steady Duplicates.plain_hash {| d_num := n; d_gen := g; d_comp := false; d_value := value_of any_real o; d_cache := 0 |} \/
      exists m d, o = OStream m d /\ forall n' g' m', document_objects hybrid_content hybrid_document n' g' = OStream m' d -> n' = n /\ g' = g)).
    + intros n0 g0. left. left. constructor.
    + intros s e Hs He. each Hs He; cbn [hybrid_content stream_content xnum xgen xdata map Z.of_N];
      lazymatch goal with
      | |- _ \/ exists m d, OStream ?m0 ?d0 = OStream m d /\ _ => right; exists m0, d0; split; [reflexivity|]; intros n' g';
          apply (Hcase (fun n g o => forall m', o = OStream m' d0 -> n = _ /\ g = 0)); [discriminate|];
          intros s e Hs He m' E'; each Hs He; try discriminate E'; split; reflexivity
      | |- _ \/ exists m d, ODict _ = OStream m d /\ _ => left; right; vm_compute; discriminate
      | |- _ => left; left; constructor
      end.
  - constructor.
    + eexists _, _, _. split; [reflexivity|]. split; [reflexivity|]. split; [split; [discriminate|reflexivity]|reflexivity].
    + intros n g e k i Hr Hx. destruct (resolved_in _ _ _ _ Hh Hr) as (s & Hs & He & _). each Hs He; cbn in Hx; try discriminate Hx;
        injection Hx as <- <-; cbn [hybrid_content stream_content xnum xdata]; (split; [clear; solve [wdict | write_it]|]); (split; [discriminate|]);
        exists {| xnum := 7; xgen := 0; xdata := KUsed 7 true |}, 7%Z, stream_of_objects, (str "x"); (split; [reflexivity|]); (split; [reflexivity|]); (split; [reflexivity|]); (split; [filters|]);
        intros key v Hkey Hv n0 g0 Hm; cbn [In] in Hkey; destruct Hkey as [<-|[<-|[]]]; vm_compute in Hv; try discriminate Hv; injection Hv as <-; inversion Hm.
    + intros n g Hst.
      assert (Hng : (n, g) = (8, 0) \/ (n, g) = (7, 0)). { destruct Hst as [X|(-> & X)]; [left; exact X|right; rewrite (Hos _ X); reflexivity]. }
      split; [|split].
      * intros H. apply refs_mentions in H. cbn in H. destruct Hng as [X|X]; injection X as -> ->; one_of H; discriminate H.
      * intros H. apply refs_mentions in H. cbn in H. destruct Hng as [X|X]; injection X as -> ->; one_of H; discriminate H.
      * intros m gm. apply (Hcase' (fun m gm o => mentions n g o -> storage u (8, 0) m gm)); [intros n0 g0 H; inversion H|].
        intros s e Hs He H. apply refs_mentions in H. exfalso. destruct Hng as [X|X]; injection X as -> ->; each Hs He; one_of H; discriminate H.
    + intros n g m d n' g' m' Hst H H'.
      assert (Hng : (n, g) = (8, 0) \/ (n, g) = (7, 0)). { destruct Hst as [X|(-> & X)]; [left; exact X|right; rewrite (Hos _ X); reflexivity]. }
      revert H'. destruct Hng as [X|X]; injection X as -> ->; vm_compute in H; injection H as <- <-;
        apply (Hcase' (fun n' g' o => o = OStream m' _ -> n' = _ /\ g' = 0)); [discriminate| |discriminate|];
        intros s e Hs He H; each Hs He; try discriminate H; split; reflexivity.
    + exists [c21_flate]. split; [filters|split; reflexivity].
    + intros v n g Hv Hm. vm_compute in Hv. injection Hv as <-. inversion Hm.
    + split; [wdict|]. intros v Hv. one_of Hv; discriminate Hv.
    + intros key Hkey. cbn [In] in Hkey. destruct Hkey as [<-|[<-|[<-|[]]]]; left; reflexivity.
  - vm_compute in Eo. apply Ok_inj in Eo. apply pair_equal_spec in Eo. destruct Eo as [<- <-]. unfold text_fits. vm_compute. reflexivity.
  - vm_compute in E. apply Ok_inj in E. subst file. vm_compute. reflexivity.
  - vm_compute in Eo. apply Ok_inj in Eo. apply pair_equal_spec in Eo. destruct Eo as [<- <-]. split; reflexivity.
Qed.

Print Assumptions C61_hybrid_lookup.
Print Assumptions C61_hybrid_save_partial.
Print Assumptions C61_hybrid_unlisted_refuted.

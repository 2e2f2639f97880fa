(** C61 (documents with cross-reference streams): a document saved with the default settings is, when opened again, the same document. *)
From Coq Require Import List NArith ZArith Bool Lia String Sorted Permutation.
From Verif.Model Require Import Base SMap Object Equality Token Parser Xref Header FileWrite StartXref Chain Merge Unreferenced Duplicates Save Loading StreamFile SaveStream.
From Verif.Spec Require Import Strings Grammar Xref FileWrite Chain Merge Unreferenced Equality Duplicates Save Loading StreamFile SaveStream.
From Verif.Proof Require Import Tac Strings StreamObj SMap FileWrite Unreferenced Save SaveStream.
From Verif.Props Require Import Save StreamFile.
From Verif.Props Require Duplicates.
Import ListNotations.
Local Open Scope N_scope.

(** For every document that has a cross-reference stream, with any number of updates (tables and streams), objects in any object streams,
    every hash function and every order of the hash tables: the file that is written opens, has the version that was asked for, and its
    Root, Info and ID look the same at any depth as those of the document.  Whatever a program asks for, changes and saves, in any order,
    it gets these objects. *)
Theorem C61_stream_save_partial : forall real hash content order arrange supported encode decode rl v self base newest older file,
  let c := newest :: older in let f := document_objects content c in
  any_order order -> any_arrangement arrange -> codec supported encode decode ->
  pure_sections c -> oldest_stream c base -> nothing_deleted c ->
  (Z.of_nat (S (List.length (flat_map s_entries c))) <= 2147483647)%Z ->
  stores_objects f -> no_loose_reference f (ODict (s_trailer newest)) -> hashes_steady real hash f ->
  compressed_document supported content c self base newest ->
  (forall items self', optimize_stream real hash content order arrange self c = Ok (items, self') -> text_fits items) ->
  save_stream_file real hash content order arrange encode v self c = Ok file -> (Z.of_nat (List.length file) < 2 ^ 63)%Z ->
  exists offset entries m d self' start,
    read_header file = Ok v /\ last_xref_offset file = Ok offset /\
    (forall fuel, read_chain parser_dictionary decode (S fuel) file offset =
       Ok [ {| s_kind := SStream; s_entries := entries; s_hybrid := None; s_trailer := m |} ]) /\
    (forall key, In key [str "Root"; str "Info"; str "ID"] ->
      match sm_find key (s_trailer newest), sm_find key m with
      | Some a, Some b => same_document real f start a b
      | None, None => True
      | _, _ => False
      end) /\
    forall fuel ops, (2 <= fuel)%nat -> Forall (spares_streams [entries]) ops ->
      Forall2 answers (fst (lrun (object_at rl file self' (OStream m d)) (objects_in rl decode) fuel ops (opened [entries])))
        (fst (expected_all [entries] ops start)).
Proof.
  intros real hash content order arrange supported encode decode rl v self base newest older file c f Hord Harr Hcd Hpure Hold Hnd Hcount Hst Hloose Hsteady Hcp Htext Hsave Hlen.
  unfold save_stream_file in Hsave. apply rbind_ok in Hsave. destruct Hsave as ([items5 self5] & Hopt & Hwrite).
  destruct (optimized_stream real hash content order arrange supported self base newest older items5 self5 Hord Harr Hpure Hold Hnd Hcount Hst Hloose Hsteady Hcp (cd_same _ _ _ Hcd) Hopt) as (Hdoc & Hn5 & bad & Hb1 & Hb2 & Hb3 & Hb4 & Hkeys).
  specialize (Hdoc (Htext _ _ Hopt)).
  destruct (C21_stream_file_reopens_partial supported encode decode rl v self5 (dictionary_of self5 items5) items5 file Hcd Hdoc Hwrite Hlen) as (offset & entries & m & d & start & A1 & A2 & A3 & _ & A5 & A6 & A7).
  exists offset, entries, m, d, self5, start. split; [exact A1|]. split; [exact A2|]. split; [exact A3|]. split; [|exact A7].
  intros key Hkey. specialize (Hkeys key Hkey).
  assert (Ek : sm_find key m = sm_find key (dictionary_of self5 items5)).
  { apply A5; [destruct Hkey as [<-|[<-|[<-|[]]]]; apply str_bytes|]. intros X. destruct Hkey as [<-|[<-|[<-|[]]]]; vm_compute in X; intuition discriminate. }
  rewrite Ek. destruct (sm_find key (s_trailer newest)) as [a|], (sm_find key (dictionary_of self5 items5)) as [b|] eqn:Eb; try exact Hkeys.
  intros k. apply resembles_trans with (f' := held items5) (b := b); [apply Hkeys|].
  apply (stream_resembles real self5 items5 (OStream m d) start bad); [apply (dc_sorted _ _ _ _ Hdoc)|exact Hn5| |exact A6|exact Hb1|exact Hb2|exact Hb3|].
  - intros e o Hin Hu. destruct (dc_entries _ _ _ _ Hdoc e o Hin) as (_ & _ & He). unfold Merge.entry_in_use in Hu. destruct (xdata e) as [next|off u|k0 i]; [eauto|destruct He; congruence|discriminate Hu].
  - intros n g Hmn. apply Hb4. assert (Hw := dc_header _ _ _ _ Hdoc). inversion Hw as [? W|? ? W]; subst; [inversion W|]. destruct (writable_parts _ W) as (S1 & K1 & _).
    apply sm_find_in in Eb; [|exact S1|exact K1|destruct Hkey as [<-|[<-|[<-|[]]]]; apply str_bytes]. eapply Spec.Unreferenced.m_dict; eassumption.
Qed.

(** *** A concrete document, updated once.  Objects 1, 2 and 4 are in the object stream 7, the stream of the oldest section is object 8, the
    update replaced object 2.  Objects 9 and 11 are equal, 5 is not used, and 3 and 6 are missing. *)
Lemma resolved_in : forall c n g e, (forall s, In s c -> s_hybrid s = None) -> resolve_entry n g c = Some e ->
  exists s, In s c /\ In e (s_entries s) /\ xnum e = n /\ xgen e = g.
Proof.
  intros c n g e Hh E. unfold resolve_entry in E. destruct (chain_entry n g c) as [e'|] eqn:Ec; [|discriminate]. assert (e' = e) by (destruct (xdata e'); congruence). subst e'. clear E.
  induction c as [|s c IH]; [discriminate|]. cbn [chain_entry] in Ec.
  assert (Hrest : chain_entry n g c = Some e -> exists s', In s' (s :: c) /\ In e (s_entries s') /\ xnum e = n /\ xgen e = g).
  { intros X. destruct IH as (s' & A & B); [intros s' Hs'; apply Hh; right; exact Hs'|exact X|]. exists s'. split; [right; exact A|exact B]. }
  destruct (sec_find n s) as [x|] eqn:Es; [|auto]. destruct (xgen x =? g) eqn:Eg; [|auto]. injection Ec as ->. exists s. split; [left; reflexivity|].
  unfold sec_find in Es. destruct (xfind n (s_entries s)) as [y|] eqn:Ey.
  - injection Es as ->. apply find_some in Ey. split; [apply Ey|split; lia].
  - rewrite (Hh s) in Es by (left; reflexivity). destruct (s_kind s); discriminate.
Qed.
Definition stream_base : section :=
  {| s_kind := SStream;
     s_entries := {| xnum := 0; xgen := 65535; xdata := KFree 0 |} ::
       {| xnum := 1; xgen := 0; xdata := KComp 7 0 |} :: {| xnum := 2; xgen := 0; xdata := KComp 7 1 |} :: {| xnum := 4; xgen := 0; xdata := KComp 7 2 |} ::
       map (fun n => {| xnum := n; xgen := 0; xdata := KUsed (Z.of_N n) true |}) [5; 7; 8; 9; 11];
     s_hybrid := None; s_trailer := [(str "Filter", OName (str "FlateDecode")); (str "Root", ORef 1 0); (str "Size", OInt 12); (str "Type", OName (str "XRef"))] |}.
Definition stream_newest : section :=
  {| s_kind := SStream; s_entries := [{| xnum := 2; xgen := 0; xdata := KUsed 700 true |}; {| xnum := 12; xgen := 0; xdata := KUsed 900 true |}]; s_hybrid := None;
     s_trailer := [(str "Info", ORef 4 0); (str "Prev", OInt 8); (str "Root", ORef 1 0); (str "Size", OInt 13); (str "Type", OName (str "XRef"))] |}.
Definition stream_of_objects : header :=
  [(str "Filter", OName (str "FlateDecode")); (str "First", OInt 12); (str "N", OInt 3); (str "Type", OName (str "ObjStm"))].
Definition stream_content (e : xentry) : obj :=
  match xnum e, xdata e with
  | 1, _ => ODict [(str "Pages", ORef 2 0); (str "Type", OName (str "Catalog"))]
  | 2, KUsed _ _ => ODict [(str "Count", OInt 2); (str "Kids", OArr [ORef 9 0; ORef 11 0])]
  | 2, _ => ODict [(str "Count", OInt 0); (str "Kids", OArr [])]
  | 4, _ => ODict [(str "Title", OLit (str "Report"))]
  | 5, _ => OLit (str "unused")
  | 7, _ => OStream stream_of_objects (str "x")
  | 8, _ => OStream (s_trailer stream_base) (str "y")
  | 9, _ => ODict [(str "Parent", ORef 2 0); (str "Type", OName (str "Page"))]
  | 11, _ => ODict [(str "Parent", ORef 2 0); (str "Type", OName (str "Page"))]
  | 12, _ => OStream (s_trailer stream_newest) (str "z")
  | _, _ => ONull
  end.
Definition stream_document : chain := [stream_newest; stream_base].
Ltac filters := exists [str "FlateDecode"]; split; [apply StreamBody.fl_name; reflexivity|split; [intros [X|[]]; discriminate X|left; reflexivity]].
Ltac each Hs He := one_of Hs; subst; one_of He; subst.

Example C61_stream_case : exists file items self',
  let f := document_objects stream_content stream_document in
  pure_sections stream_document /\ oldest_stream stream_document stream_base /\ nothing_deleted stream_document /\
  stores_objects f /\ no_loose_reference f (ODict (s_trailer stream_newest)) /\ hashes_steady any_real Duplicates.plain_hash f /\
  compressed_document flate_only stream_content stream_document (8, 0) stream_base stream_newest /\
  optimize_stream any_real Duplicates.plain_hash stream_content by_number as_listed (8, 0) stream_document = Ok (items, self') /\ text_fits items /\
  save_stream_file any_real Duplicates.plain_hash stream_content by_number as_listed (encode_in_memory c21_deflate c21_inflate) PDF15 (8, 0) stream_document = Ok file /\
  (Z.of_nat (List.length file) < 2 ^ 63)%Z /\ self' = (5, 0) /\ map (fun p => xnum (fst p)) items = [0; 1; 2; 3; 4; 5; 6].
Proof.
  destruct (save_stream_file any_real Duplicates.plain_hash stream_content by_number as_listed (encode_in_memory c21_deflate c21_inflate) PDF15 (8, 0) stream_document) as [file| | |] eqn:E;
    [|vm_compute in E; discriminate..].
  destruct (optimize_stream any_real Duplicates.plain_hash stream_content by_number as_listed (8, 0) stream_document) as [[items self']| | |] eqn:Eo; [|vm_compute in Eo; discriminate..].
  exists file, items, self'. cbv zeta.
  assert (Hh : forall s, In s stream_document -> s_hybrid s = None) by (intros s Hs; one_of Hs; subst s; reflexivity).
  assert (Hcase : forall P : N -> N -> obj -> Prop, (forall n g, P n g ONull) -> (forall s e, In s stream_document -> In e (s_entries s) -> P (xnum e) (xgen e) (stream_content e)) ->
            forall n g, P n g (document_objects stream_content stream_document n g)) by (intros P A B; apply document_cases; assumption).
  assert (Hos : forall n, object_stream stream_document n -> n = 7).
  { intros n (m & g & e & i & Hr & Hx). destruct (resolved_in _ _ _ _ Hh Hr) as (s & Hs & He & _). each Hs He; cbn in Hx; try discriminate Hx; injection Hx; congruence. }
  split; [|split; [|split; [|split; [|split; [|split; [|split; [|split; [reflexivity|split; [|split; [reflexivity|split; [|]]]]]]]]]]].
  - intros s Hs. one_of Hs; subst s; (split; [reflexivity|]); (split; [repeat constructor; cbn; intuition discriminate|]);
      intros e He; one_of He; subst e; cbn [xgen xdata]; repeat split; try discriminate; reflexivity.
  - exists [stream_newest], []. split; [reflexivity|]. split; [reflexivity|intros s []].
  - intros newer s older e s' e' Ec He Hn Hs' He' En Hd. destruct newer as [|x newer].
    + injection Ec as <- <-. one_of Hs'. subst s'. one_of He; subst e; one_of He'; subst e'; try discriminate En; split; reflexivity || exact I.
    + apply (f_equal (@tl _)) in Ec. cbn [tl app stream_document] in Ec. destruct newer as [|y newer]; [injection Ec as <- <-; destruct Hs'|]. apply (f_equal (@tl _)) in Ec. destruct newer; discriminate.
  - intros n g. apply (Hcase (fun _ _ o => storable o /\ forall n' g', o <> ORef n' g')).
    + split; [apply st_direct; constructor|discriminate].
    + intros s e Hs He. each Hs He; (split; [|discriminate]); cbn [stream_content xnum xdata map Z.of_N];
      match goal with
      | |- storable (OStream _ _) => apply st_stream; [wdict|intros v Hv; cbn [In stream_base stream_newest s_trailer] in Hv; unfold stream_of_objects in Hv; cbn [In] in Hv; repeat (destruct Hv as [Hv|Hv]; [discriminate Hv|]); destruct Hv|reflexivity]
      | |- storable ONull => apply st_direct; constructor
      | |- _ => solve [write_it]
      end.
  - intros n g [H|(m & gm & H)].
    + apply refs_mentions in H. cbn in H. one_of H; injection H as <- <-; discriminate.
    + revert n g H. apply (Hcase (fun _ _ o => forall n g, mentions n g o -> document_objects stream_content stream_document n g <> ONull)).
      * intros n0 g0 n g H. inversion H.
      * intros s e Hs He n g H. apply refs_mentions in H. each Hs He; one_of H; injection H as <- <-; discriminate.
  - intros n g. apply (Hcase (fun n g o =>
      steady Duplicates.plain_hash {| d_num := n; d_gen := g; d_comp := false; d_value := value_of any_real o; d_cache := 0 |} \/
      exists m d, o = OStream m d /\ forall n' g' m', document_objects stream_content stream_document n' g' = OStream m' d -> n' = n /\ g' = g)).
    + intros n0 g0. left. left. constructor.
    + intros s e Hs He. each Hs He; cbn [stream_content xnum xgen xdata map Z.of_N];
      lazymatch goal with
      | |- _ \/ exists m d, OStream ?m0 ?d0 = OStream m d /\ _ => right; exists m0, d0; split; [reflexivity|]; intros n' g';
          apply (Hcase (fun n g o => forall m', o = OStream m' d0 -> n = _ /\ g = 0)); [discriminate|];
          intros s e Hs He m' E'; each Hs He; try discriminate E'; split; reflexivity
      | |- _ \/ exists m d, ODict _ = OStream m d /\ _ => left; right; vm_compute; discriminate
      | |- _ => left; left; constructor
      end.
  - constructor.
    + eexists _, _, _. split; [reflexivity|]. split; [reflexivity|]. split; [split; [discriminate|reflexivity]|reflexivity].
    + intros n g e k i Hr Hx. destruct (resolved_in _ _ _ _ Hh Hr) as (s & Hs & He & _). each Hs He; cbn in Hx; try discriminate Hx;
        injection Hx as <- <-; cbn [stream_content xnum xdata]; (split; [clear; solve [wdict | write_it]|]); (split; [discriminate|]);
        exists {| xnum := 7; xgen := 0; xdata := KUsed 7 true |}, 7%Z, stream_of_objects, (str "x"); (split; [reflexivity|]); (split; [reflexivity|]); (split; [reflexivity|]); (split; [filters|]);
        intros key v Hkey Hv n0 g0 Hm; cbn [In] in Hkey; destruct Hkey as [<-|[<-|[]]]; vm_compute in Hv; try discriminate Hv; injection Hv as <-; inversion Hm.
    + intros n g Hst.
      assert (Hng : (n, g) = (8, 0) \/ (n, g) = (7, 0)). { destruct Hst as [X|(-> & X)]; [left; exact X|right; rewrite (Hos _ X); reflexivity]. }
      split; [|split].
      * intros H. apply refs_mentions in H. cbn in H. destruct Hng as [X|X]; injection X as -> ->; one_of H; discriminate H.
      * intros H. apply refs_mentions in H. cbn in H. destruct Hng as [X|X]; injection X as -> ->; one_of H; discriminate H.
      * intros m gm. apply (Hcase (fun m gm o => mentions n g o -> storage stream_document (8, 0) m gm)); [intros n0 g0 H; inversion H|].
        intros s e Hs He H. apply refs_mentions in H. exfalso. destruct Hng as [X|X]; injection X as -> ->; each Hs He; one_of H; discriminate H.
    + intros n g m d n' g' m' Hst H H'.
      assert (Hng : (n, g) = (8, 0) \/ (n, g) = (7, 0)). { destruct Hst as [X|(-> & X)]; [left; exact X|right; rewrite (Hos _ X); reflexivity]. }
      revert H'. destruct Hng as [X|X]; injection X as -> ->; vm_compute in H; injection H as <- <-;
        apply (Hcase (fun n' g' o => o = OStream m' _ -> n' = _ /\ g' = 0)); [discriminate| |discriminate|];
        intros s e Hs He H; each Hs He; try discriminate H; split; reflexivity.
    + exists [c21_flate]. split; [filters|split; reflexivity].
    + intros v n g Hv Hm. vm_compute in Hv. injection Hv as <-. inversion Hm.
    + split; [wdict|]. intros v Hv. one_of Hv; discriminate Hv.
    + intros key Hkey. cbn [In] in Hkey. destruct Hkey as [<-|[<-|[<-|[]]]]; [right; reflexivity|left; reflexivity|left; reflexivity].
  - vm_compute in Eo. apply Ok_inj in Eo. apply pair_equal_spec in Eo. destruct Eo as [<- <-]. unfold text_fits. vm_compute. reflexivity.
  - vm_compute in E. apply Ok_inj in E. subst file. vm_compute. reflexivity.
  - vm_compute in Eo. apply Ok_inj in Eo. apply pair_equal_spec in Eo. destruct Eo as [<- <-]. split; reflexivity.
Qed.

Print Assumptions C61_stream_save_partial.

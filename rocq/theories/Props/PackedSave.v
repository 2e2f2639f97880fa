(** C99: a document with object streams that is saved whole is the same document to every reader that follows the standard. *)
From Coq Require Import List NArith ZArith Bool Lia String Sorted Permutation.
From Coq Require Import List.
From Verif.Model Require Import Base SMap Object Equality Token Parser Xref Header FileWrite StartXref Chain Merge Unreferenced Duplicates Save Loading StreamFile SaveStream.
From Verif.Spec Require Import Strings Grammar Xref FileWrite Chain Merge Unreferenced Equality Duplicates Save Loading StreamFile SaveStream Conforming Compressed WrittenStream PackedSave.
From Verif.Spec Require StandardSave.
From Verif.Proof Require Import Tac Strings StreamObj SMap FileWrite Unreferenced Save SaveStream PackedSave.
From Verif.Props Require Import Save StreamFile SaveStream WrittenStream.
From Verif.Props Require Duplicates.
Import ListNotations.
Local Open Scope N_scope.

(** For every document with a cross-reference stream, any number of updates, every hash function and every order of the hash tables: when the
    indexes of the objects in object streams that can be reached from Root, Info or ID are their places among these (the others may have
    any index, but no dictionary of a stream that only stores objects leads to them), the file that is saved follows the standard (but for the row of the cross-reference stream for itself), every reference has the meaning that
    [start] gives it, and whatever is taken for the cross-reference stream itself, Root, Info and ID look the same at any depth as those
    of the document.  The other documents: C99_lost_refuted. *)
Theorem C99_saved_partial : forall real hash content order arrange supported encode decode v self base newest older file,
  let c := newest :: older in let f := document_objects content c in
  any_order order -> any_arrangement arrange -> codec supported encode decode ->
  pure_sections c -> oldest_stream c base -> nothing_deleted c ->
  (Z.of_nat (S (List.length (flat_map s_entries c))) <= 2147483647)%Z ->
  stores_objects f -> no_loose_reference f (ODict (s_trailer newest)) -> hashes_steady real hash f ->
  compressed_document supported content c self base newest ->
  in_place c f (s_trailer newest) -> (forall n k i, packed_at c n k i -> needed c self f (s_trailer newest) n 0 -> shown f (s_trailer newest) n 0) ->
  (forall items self', optimize_stream real hash content order arrange self c = Ok (items, self') -> text_fits items) ->
  save_stream_file real hash content order arrange encode v self c = Ok file -> N.of_nat (List.length file) < 2 ^ 63 ->
  exists r self' start, follows_but_own_rows decode file v [r] /\ v_self r = Some self' /\
    (forall n g, (n, g) <> self' -> means decode file [r] n g (start n g)) /\
    forall start' : store, (forall n g, (n, g) <> self' -> start' n g = start n g) ->
      StandardSave.same_entries real f start' (s_trailer newest) (v_trailer r).
Proof.
  intros real hash content order arrange supported encode decode v self base newest older file c f Hord Harr Hcd Hpure Hold Hnd Hcount Hst Hloose Hsteady Hcp Hplace Hall Htext Hsave Hlen.
  unfold save_stream_file in Hsave. apply rbind_ok in Hsave. destruct Hsave as ([items5 self5] & Hopt & Hwrite).
  destruct (optimized_packed real hash content order arrange supported self base newest older items5 self5 Hord Harr Hpure Hold Hnd Hcount Hst Hloose Hsteady Hcp (cd_same _ _ _ Hcd) Hopt) as ((Hdoc & Hn5 & bad & Hb1 & Hb2 & Hb3 & Hb4 & Hkeys) & Hpacked).
  specialize (Hdoc (Htext _ _ Hopt)).
  assert (Hi := packed_places _ _ _ _ _ (strictly_nodup _ (dc_sorted _ _ _ _ Hdoc)) Hpacked Hplace Hall).
  destruct (C95_saved_partial supported encode decode v self5 (dictionary_of self5 items5) items5 file Hcd Hdoc Hi Hwrite Hlen) as (r & F & Hv & _ & _ & _ & Hk & M).
  destruct (all_meanings supported decode file [r] self5 (dictionary_of self5 items5) items5 Hdoc M) as (start & S1 & S2).
  exists r, self5, start. split; [exact F|]. split; [exact Hv|]. split; [exact S1|].
  intros start' Hst' key Hkey. specialize (Hkeys key Hkey).
  assert (Ek : sm_find key (v_trailer r) = sm_find key (dictionary_of self5 items5)).
  { apply Hk; [destruct Hkey as [<-|[<-|[<-|[]]]]; apply str_bytes|]. intros X. destruct Hkey as [<-|[<-|[<-|[]]]]; vm_compute in X; intuition discriminate. }
  rewrite Ek. destruct (sm_find key (s_trailer newest)) as [a|], (sm_find key (dictionary_of self5 items5)) as [b|] eqn:Eb; try exact Hkeys.
  intros k. apply resembles_trans with (f' := held items5) (b := b); [apply Hkeys|].
  apply (stream_resembles real self5 items5 (start' (fst self5) (snd self5)) start' bad); [apply (dc_sorted _ _ _ _ Hdoc)|exact Hn5| |apply S2; exact Hst'|exact Hb1|exact Hb2|exact Hb3|].
  - intros e o Hin Hu. destruct (dc_entries _ _ _ _ Hdoc e o Hin) as (_ & _ & He). unfold Merge.entry_in_use in Hu. destruct (xdata e) as [next|off u|k0 i]; [eauto|destruct He; congruence|discriminate Hu].
  - intros n g Hmn. apply Hb4. assert (Hw := dc_header _ _ _ _ Hdoc). inversion Hw as [? W|? ? W]; subst; [inversion W|]. destruct (writable_parts _ W) as (W1 & K1 & _).
    apply sm_find_in in Eb; [|exact W1|exact K1|destruct Hkey as [<-|[<-|[<-|[]]]]; apply str_bytes]. eapply Spec.Unreferenced.m_dict; eassumption.
Qed.

(** The indexes of the objects in object streams are never renewed.  When an object [n] can be reached from Root, Info or ID, and its index
    is not below the number of the objects of its object stream that are still needed - the others were replaced by an update or are
    dropped by the save - then the file that is saved follows the standard (but for that row), and it has a number, in use, for
    which there is no object, whoever reads the file. *)
Theorem C99_lost_refuted : forall real hash content order arrange supported encode decode v self base newest older file n k i present,
  let c := newest :: older in let f := document_objects content c in
  any_order order -> any_arrangement arrange -> codec supported encode decode ->
  pure_sections c -> oldest_stream c base -> nothing_deleted c ->
  (Z.of_nat (S (List.length (flat_map s_entries c))) <= 2147483647)%Z ->
  stores_objects f -> no_loose_reference f (ODict (s_trailer newest)) -> hashes_steady real hash f ->
  compressed_document supported content c self base newest ->
  packed_at c n k i -> shown f (s_trailer newest) n 0 ->
  (forall n' i', packed_at c n' k i' -> needed c self f (s_trailer newest) n' 0 -> In n' present) -> N.of_nat (List.length present) <= i ->
  (forall items self', optimize_stream real hash content order arrange self c = Ok (items, self') -> text_fits items) ->
  save_stream_file real hash content order arrange encode v self c = Ok file -> N.of_nat (List.length file) < 2 ^ 63 ->
  (exists revs, follows_but_own_rows decode file v revs) /\
  exists n', forall v' revs, follows_but_own_rows decode file v' revs ->
    (exists k', listed_last revs n' (Packed k' i)) /\ forall x, ~ means decode file revs n' 0 x.
Proof.
  intros real hash content order arrange supported encode decode v self base newest older file n k i present c f Hord Harr Hcd Hpure Hold Hnd Hcount Hst Hloose Hsteady Hcp Hpk Hsh Hpres Hi Htext Hsave Hlen.
  unfold save_stream_file in Hsave. apply rbind_ok in Hsave. destruct Hsave as ([items5 self5] & Hopt & Hwrite).
  destruct (optimized_packed real hash content order arrange supported self base newest older items5 self5 Hord Harr Hpure Hold Hnd Hcount Hst Hloose Hsteady Hcp (cd_same _ _ _ Hcd) Hopt) as ((Hdoc & _) & number & kept & Hinj & Hfrom & Hto).
  specialize (Hdoc (Htext _ _ Hopt)). destruct (Hto n k i Hpk Hsh) as (_ & Hk & e & o & Hin & En & Ed).
  assert (Hc := few_members c self f (s_trailer newest) items5 number kept k present (strictly_nodup _ (dc_sorted _ _ _ _ Hdoc)) Hinj Hk Hfrom Hpres).
  destruct (C95_index_refuted supported encode decode v self5 (dictionary_of self5 items5) items5 file e o (number k) i Hcd Hdoc Hin Ed ltac:(lia) Hwrite Hlen) as (A & B).
  split; [exact A|]. exists (xnum e). intros v' revs Hf. destruct (B v' revs Hf) as (B1 & B2). split; [exists (number k); exact B1|exact B2].
Qed.

(** The document of C61_stream_case: the update replaced object 2, the second of the three objects in the object stream 7.  Object 4 (Info)
    keeps the index 2, and there are two objects left: it is lost. *)
Example C99_lost_case : exists file,
  save_stream_file any_real Duplicates.plain_hash stream_content by_number as_listed (encode_in_memory c21_deflate c21_inflate) PDF15 (8, 0) stream_document = Ok file /\
  (exists revs, follows_but_own_rows (decode_plain c21_inflate) file PDF15 revs) /\
  exists n', forall v' revs, follows_but_own_rows (decode_plain c21_inflate) file v' revs -> (exists k', listed_last revs n' (Packed k' 2)) /\ forall x, ~ means (decode_plain c21_inflate) file revs n' 0 x.
Proof.
  destruct C61_stream_case as (file & items & self' & H1 & H2 & H3 & H4 & H5 & H6 & H7 & H8 & H9 & H10 & H11 & _). exists file. split; [exact H10|].
  apply (C99_lost_refuted any_real Duplicates.plain_hash stream_content by_number as_listed flate_only (encode_in_memory c21_deflate c21_inflate) (decode_plain c21_inflate) PDF15 (8, 0) stream_base stream_newest [stream_base] file 4 7 2 [1; 4]);
    try assumption.
  - exact by_number_any.
  - exact as_listed_any.
  - exact c95_codec.
  - vm_compute. discriminate.
  - exists {| xnum := 4; xgen := 0; xdata := KComp 7 2 |}. split; reflexivity.
  - exists (str "Info"), (ORef 4 0). split; [right; left; reflexivity|]. split; [reflexivity|]. apply live_trailer. constructor.
  - intros n' i' (e & Hr & Ed) _. assert (Hh : forall s, In s stream_document -> s_hybrid s = None) by (intros s Hs; one_of Hs; subst s; reflexivity).
    destruct (resolved_in stream_document _ _ _ Hh Hr) as (s & Hs & He & En & _). each Hs He; cbn [xdata map] in Ed; try discriminate Ed; cbn [xnum]; [left; reflexivity|vm_compute in Hr; discriminate Hr|right; left; reflexivity].
  - cbn [List.length]. discriminate.
  - intros it se E. assert (X := eq_trans (eq_sym H8) E). clear E. rename X into E. apply Ok_inj in E. apply pair_equal_spec in E. destruct E as [<- _]. exact H9.
  - lia.
Qed.

(** the same document, when the replaced object and the one that nothing refers to were the last ones of the object stream *)
Definition placed_base : section :=
  {| s_kind := SStream;
     s_entries := {| xnum := 0; xgen := 65535; xdata := KFree 0 |} ::
       {| xnum := 1; xgen := 0; xdata := KComp 7 0 |} :: {| xnum := 2; xgen := 0; xdata := KComp 7 2 |} :: {| xnum := 4; xgen := 0; xdata := KComp 7 1 |} ::
       {| xnum := 5; xgen := 0; xdata := KComp 7 3 |} ::
       map (fun n => {| xnum := n; xgen := 0; xdata := KUsed (Z.of_N n) true |}) [7; 8; 9; 11];
     s_hybrid := None; s_trailer := [(str "Filter", OName (str "FlateDecode")); (str "Root", ORef 1 0); (str "Size", OInt 12); (str "Type", OName (str "XRef"))] |}.
Definition placed_document : chain := [stream_newest; placed_base].
Lemma placed_case : exists file items self',
  let f := document_objects stream_content placed_document in
  pure_sections placed_document /\ oldest_stream placed_document placed_base /\ nothing_deleted placed_document /\
  stores_objects f /\ no_loose_reference f (ODict (s_trailer stream_newest)) /\ hashes_steady any_real Duplicates.plain_hash f /\
  compressed_document flate_only stream_content placed_document (8, 0) placed_base stream_newest /\
  optimize_stream any_real Duplicates.plain_hash stream_content by_number as_listed (8, 0) placed_document = Ok (items, self') /\ text_fits items /\
  save_stream_file any_real Duplicates.plain_hash stream_content by_number as_listed (encode_in_memory c21_deflate c21_inflate) PDF15 (8, 0) placed_document = Ok file /\
  (Z.of_nat (List.length file) < 2 ^ 63)%Z /\ self' = (5, 0) /\ map (fun p => xnum (fst p)) items = [0; 1; 2; 3; 4; 5; 6].
Proof.
  destruct (save_stream_file any_real Duplicates.plain_hash stream_content by_number as_listed (encode_in_memory c21_deflate c21_inflate) PDF15 (8, 0) placed_document) as [file| | |] eqn:E;
    [|vm_compute in E; discriminate..].
  destruct (optimize_stream any_real Duplicates.plain_hash stream_content by_number as_listed (8, 0) placed_document) as [[items self']| | |] eqn:Eo; [|vm_compute in Eo; discriminate..].
  exists file, items, self'. cbv zeta.
  assert (Hh : forall s, In s placed_document -> s_hybrid s = None) by (intros s Hs; one_of Hs; subst s; reflexivity).
  assert (Hcase : forall P : N -> N -> obj -> Prop, (forall n g, P n g ONull) -> (forall s e, In s placed_document -> In e (s_entries s) -> P (xnum e) (xgen e) (stream_content e)) ->
            forall n g, P n g (document_objects stream_content placed_document n g)) by (intros P A B; apply document_cases; assumption).
  assert (Hos : forall n, Spec.SaveStream.object_stream placed_document n -> n = 7).
  { intros n (m & g & e & i & Hr & Hx). destruct (resolved_in _ _ _ _ Hh Hr) as (s & Hs & He & _). each Hs He; cbn in Hx; try discriminate Hx; injection Hx; congruence. }
  split; [|split; [|split; [|split; [|split; [|split; [|split; [|split; [reflexivity|split; [|split; [reflexivity|split; [|]]]]]]]]]]].
  - intros s Hs. one_of Hs; subst s; (split; [reflexivity|]); (split; [repeat constructor; cbn; intuition discriminate|]);
      intros e He; one_of He; subst e; cbn [xgen xdata]; repeat split; try discriminate; reflexivity.
  - exists [stream_newest], []. split; [reflexivity|]. split; [reflexivity|intros s []].
  - intros newer s older e s' e' Ec He Hn Hs' He' En Hd. destruct newer as [|x newer].
    + injection Ec as <- <-. one_of Hs'. subst s'. one_of He; subst e; one_of He'; subst e'; try discriminate En; split; reflexivity || exact I.
    + apply (f_equal (@tl _)) in Ec. cbn [tl app placed_document] in Ec. destruct newer as [|y newer]; [injection Ec as <- <-; destruct Hs'|]. apply (f_equal (@tl _)) in Ec. destruct newer; discriminate.
  - intros n g. apply (Hcase (fun _ _ o => storable o /\ forall n' g', o <> ORef n' g')).
    + split; [apply st_direct; constructor|discriminate].
    + intros s e Hs He. each Hs He; (split; [|discriminate]); cbn [stream_content xnum xdata map Z.of_N];
      match goal with
      | |- storable (OStream _ _) => apply st_stream; [wdict|intros v Hv; cbn [In placed_base stream_base stream_newest s_trailer] in Hv; unfold stream_of_objects in Hv; cbn [In] in Hv; repeat (destruct Hv as [Hv|Hv]; [discriminate Hv|]); destruct Hv|reflexivity]
      | |- storable ONull => apply st_direct; constructor
      | |- _ => solve [write_it]
      end.
  - intros n g [H|(m & gm & H)].
    + apply refs_mentions in H. cbn in H. one_of H; injection H as <- <-; discriminate.
    + revert n g H. apply (Hcase (fun _ _ o => forall n g, mentions n g o -> document_objects stream_content placed_document n g <> ONull)).
      * intros n0 g0 n g H. inversion H.
      * intros s e Hs He n g H. apply refs_mentions in H. each Hs He; one_of H; injection H as <- <-; discriminate.
  - intros n g. apply (Hcase (fun n g o =>
      steady Duplicates.plain_hash {| d_num := n; d_gen := g; d_comp := false; d_value := value_of any_real o; d_cache := 0 |} \/
      exists m d, o = OStream m d /\ forall n' g' m', document_objects stream_content placed_document n' g' = OStream m' d -> n' = n /\ g' = g)).
    + intros n0 g0. left. left. constructor.
    + intros s e Hs He. each Hs He; cbn [stream_content xnum xgen xdata map Z.of_N];
      lazymatch goal with
      | |- _ \/ exists m d, OStream ?m0 ?d0 = OStream m d /\ _ => right; exists m0, d0; split; [reflexivity|]; intros n' g';
          apply (Hcase (fun n g o => forall m', o = OStream m' d0 -> n = _ /\ g = 0)); [discriminate|];
          intros s e Hs He m' E'; each Hs He; try discriminate E'; split; reflexivity
      | |- _ \/ exists m d, ODict _ = OStream m d /\ _ => left; right; vm_compute; discriminate
      | |- _ => left; left; constructor
      end.
  - constructor.
    + eexists _, _, _. split; [reflexivity|]. split; [reflexivity|]. split; [split; [discriminate|reflexivity]|reflexivity].
    + intros n g e k i Hr Hx. destruct (resolved_in _ _ _ _ Hh Hr) as (s & Hs & He & _). each Hs He; cbn in Hx; try discriminate Hx;
        injection Hx as <- <-; cbn [stream_content xnum xdata]; (split; [clear; solve [wdict | write_it]|]); (split; [discriminate|]);
        exists {| xnum := 7; xgen := 0; xdata := KUsed 7 true |}, 7%Z, stream_of_objects, (str "x"); (split; [reflexivity|]); (split; [reflexivity|]); (split; [reflexivity|]); (split; [filters|]);
        intros key v Hkey Hv n0 g0 Hm; cbn [In] in Hkey; destruct Hkey as [<-|[<-|[]]]; vm_compute in Hv; try discriminate Hv; injection Hv as <-; inversion Hm.
    + intros n g Hst.
      assert (Hng : (n, g) = (8, 0) \/ (n, g) = (7, 0)). { destruct Hst as [X|(-> & X)]; [left; exact X|right; rewrite (Hos _ X); reflexivity]. }
      split; [|split].
      * intros H. apply refs_mentions in H. cbn in H. destruct Hng as [X|X]; injection X as -> ->; one_of H; discriminate H.
      * intros H. apply refs_mentions in H. cbn in H. destruct Hng as [X|X]; injection X as -> ->; one_of H; discriminate H.
      * intros m gm. apply (Hcase (fun m gm o => mentions n g o -> storage placed_document (8, 0) m gm)); [intros n0 g0 H; inversion H|].
        intros s e Hs He H. apply refs_mentions in H. exfalso. destruct Hng as [X|X]; injection X as -> ->; each Hs He; one_of H; discriminate H.
    + intros n g m d n' g' m' Hst H H'.
      assert (Hng : (n, g) = (8, 0) \/ (n, g) = (7, 0)). { destruct Hst as [X|(-> & X)]; [left; exact X|right; rewrite (Hos _ X); reflexivity]. }
      revert H'. destruct Hng as [X|X]; injection X as -> ->; vm_compute in H; injection H as <- <-;
        apply (Hcase (fun n' g' o => o = OStream m' _ -> n' = _ /\ g' = 0)); [discriminate| |discriminate|];
        intros s e Hs He H; each Hs He; try discriminate H; split; reflexivity.
    + exists [c21_flate]. split; [filters|split; reflexivity].
    + intros v n g Hv Hm. vm_compute in Hv. injection Hv as <-. inversion Hm.
    + split; [wdict|]. intros v Hv. one_of Hv; discriminate Hv.
    + intros key Hkey. cbn [In] in Hkey. destruct Hkey as [<-|[<-|[<-|[]]]]; [right; reflexivity|left; reflexivity|left; reflexivity].
  - vm_compute in Eo. apply Ok_inj in Eo. apply pair_equal_spec in Eo. destruct Eo as [<- <-]. unfold text_fits. vm_compute. reflexivity.
  - vm_compute in E. apply Ok_inj in E. subst file. vm_compute. reflexivity.
  - vm_compute in Eo. apply Ok_inj in Eo. apply pair_equal_spec in Eo. destruct Eo as [<- <-]. split; reflexivity.
Qed.
Example C99_saved_case : exists file r self' start,
  save_stream_file any_real Duplicates.plain_hash stream_content by_number as_listed (encode_in_memory c21_deflate c21_inflate) PDF15 (8, 0) placed_document = Ok file /\
  follows_but_own_rows (decode_plain c21_inflate) file PDF15 [r] /\ v_self r = Some self' /\
  (forall n g, (n, g) <> self' -> means (decode_plain c21_inflate) file [r] n g (start n g)) /\
  StandardSave.same_entries any_real (document_objects stream_content placed_document) start (s_trailer stream_newest) (v_trailer r).
Proof.
  destruct placed_case as (file & items & self' & H1 & H2 & H3 & H4 & H5 & H6 & H7 & H8 & H9 & H10 & H11 & _).
  assert (Hh : forall s, In s placed_document -> s_hybrid s = None) by (intros s Hs; one_of Hs; subst s; reflexivity).
  assert (Hcases : forall n k i, packed_at placed_document n k i -> n <> 5 -> k = 7 /\ (n = 1 /\ i = 0 \/ n = 4 /\ i = 1)).
  { intros n k i (e & Hr & Ed) Hn5. destruct (resolved_in placed_document _ _ _ Hh Hr) as (s & Hs & He & En & _). each Hs He; cbn [xdata map] in Ed; try discriminate Ed; cbn [xnum] in *.
    - injection Ed as <- <-. auto.
    - vm_compute in Hr. discriminate Hr.
    - injection Ed as <- <-. auto.
    - congruence. }
  assert (Hno : forall m gm g, ~ mentions 5 g (document_objects stream_content placed_document m gm)).
  { intros m gm g. apply (document_cases stream_content placed_document (fun _ _ o => ~ mentions 5 g o)).
    - intros n0 g0 H. inversion H.
    - intros s e Hs He H. apply refs_mentions in H. each Hs He; one_of H; discriminate H.
    - exact Hh. }
  assert (Hunused : forall o g, (forall g, ~ mentions 5 g o) -> ~ live (document_objects stream_content placed_document) o 5 g).
  { intros o g Ho L. inversion L as [? ? H|m gm ? ? _ H]; subst; [exact (Ho g H)|exact (Hno m gm g H)]. }
  assert (Hnot : forall g, ~ needed placed_document (8, 0) (document_objects stream_content placed_document) (s_trailer stream_newest) 5 g).
  { intros g [L|(m & gm & _ & L)]; (eapply Hunused; [|exact L]); [|intros g'; apply Hno]. intros g' H. apply refs_mentions in H. cbn in H. one_of H; discriminate H. }
  assert (Hns : ~ shown (document_objects stream_content placed_document) (s_trailer stream_newest) 5 0).
  { intros (key & v & Hkey & Hv & L). eapply Hunused; [|exact L]. intros g' H. cbn [In] in Hkey.
    destruct Hkey as [<-|[<-|[<-|[]]]]; vm_compute in Hv; try discriminate Hv; injection Hv as <-; inversion H. }
  assert (Hs1 : shown (document_objects stream_content placed_document) (s_trailer stream_newest) 1 0).
  { exists (str "Root"), (ORef 1 0). split; [left; reflexivity|]. split; [reflexivity|]. apply live_trailer. constructor. }
  assert (Hs4 : shown (document_objects stream_content placed_document) (s_trailer stream_newest) 4 0).
  { exists (str "Info"), (ORef 4 0). split; [right; left; reflexivity|]. split; [reflexivity|]. apply live_trailer. constructor. }
  destruct (C99_saved_partial any_real Duplicates.plain_hash stream_content by_number as_listed flate_only (encode_in_memory c21_deflate c21_inflate) (decode_plain c21_inflate) PDF15 (8, 0) placed_base stream_newest [placed_base] file)
    as (r & self2 & start & A & B & C & E); try assumption.
  - exact by_number_any.
  - exact as_listed_any.
  - exact c95_codec.
  - vm_compute. discriminate.
  - intros k. exists (if k =? 7 then [1; 4] else []). intros n i. split.
    + intros [H Hsh]. destruct (Hcases _ _ _ H ltac:(intros ->; exact (Hns Hsh))) as (-> & [[-> ->]|[-> ->]]); reflexivity.
    + destruct (k =? 7) eqn:Ek; [|destruct (N.to_nat i); discriminate]. assert (k = 7) by lia. subst k. destruct (N.to_nat i) as [|[|x]] eqn:Ei; cbn [nth_error]; intros H.
      * assert (n = 1) by congruence. assert (i = 0) by lia. subst. split; [exists {| xnum := 1; xgen := 0; xdata := KComp 7 0 |}; split; reflexivity|exact Hs1].
      * assert (n = 4) by congruence. assert (i = 1) by lia. subst. split; [exists {| xnum := 4; xgen := 0; xdata := KComp 7 1 |}; split; reflexivity|exact Hs4].
      * destruct x; discriminate H.
  - intros n k i H Hneed. destruct (Hcases _ _ _ H ltac:(intros ->; exact (Hnot 0 Hneed))) as (_ & [[-> _]|[-> _]]); assumption.
  - intros it se E. assert (X := eq_trans (eq_sym H8) E). clear E. rename X into E. apply Ok_inj in E. apply pair_equal_spec in E. destruct E as [<- _]. exact H9.
  - lia.
  - exists file, r, self2, start. split; [exact H10|]. split; [exact A|]. split; [exact B|]. split; [exact C|]. apply E. reflexivity.
Qed.

Print Assumptions C99_saved_partial.
Print Assumptions C99_lost_refuted.

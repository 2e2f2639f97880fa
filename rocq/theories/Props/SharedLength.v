(** C97: streams whose length is another object are saved with all their data. *)
From Coq Require Import List NArith ZArith Bool Lia String Sorted.
From Coq Require Import List.
From Verif.Model Require Import Base SMap Object Token Parser Xref Header FileWrite Chain Update Rebuild Conforming SharedLength.
From Verif.Spec Require Import Strings Grammar Xref FileWrite Update Conforming Written SharedLength.
From Verif.Proof Require Import Tac Strings SMap FileWrite Update Conforming Written SharedLength.
From Verif.Props Require Conforming Save.
Import ListNotations.
Local Open Scope N_scope.

(** For every document whose streams have their length in their dictionary, in an object that they may share with other streams, or
    nowhere, right or wrong: the file follows the standard, and every reference stands for the object of the document, streams with all
    their data; an object that is the length of other streams is what it was.  Missing: documents with references to lengths that are
    not there (see below) or are reals, and the Size of the trailer. *)
Theorem C97_written_partial : forall v l trailer file, saveable_document l -> writable (ODict trailer) ->
  (forall x, ~ In (str "Prev", x) trailer) -> (forall x, ~ In (str "XRefStm", x) trailer) ->
  write_document v l trailer = Ok file -> (Z.of_nat (List.length file) <= 10 ^ 10)%Z ->
  exists r, conforming file v [r] /\ same_trailer trailer (r_trailer r) /\
    (forall n g o, has l n g o -> exists o', stands_for file [r] n g o' /\ kept_object file [r] o o') /\
    forall n g, (forall o, ~ has l n g o) -> stands_for file [r] n g ONull.
Proof.
  intros v l trailer file Hd Ht Hp Hx Hw Hlen. destruct (document_written v l trailer file Hd Ht Hp Hx Hw Hlen) as (r & H1 & H2 & H3).
  destruct Hd as (Hs & Hcnt & _ & Hl). exists r. split; [exact H1|]. split; [rewrite H2; apply (size_written trailer (List.length l) Ht Hcnt)|]. destruct H3 as [H3 H4]. cbn [fst] in *. split.
  - intros n g o (off & Hin). assert (H := H4 _ _ Hin). cbn [xdata xnum xgen] in H. destruct H as (pos & o' & P1 & P2 & P3).
    exists o'. split; [|apply (resized_kept file l trailer r []); [split; assumption|exact P3]].
    apply (sf_object _ _ _ _ pos []); [apply listed, P1|apply (object_in_file file l trailer r []); [split; assumption|exact P2]].
  - intros n g Hno. destruct (in_dec N.eq_dec n (map (fun p => xnum (fst p)) l)) as [Hin|Hin].
    + apply in_map_iff in Hin. destruct Hin as ([e o] & En & Hin). cbn [fst] in En. subst n. assert (H := H4 _ _ Hin). destruct (Hl _ _ Hin) as [(_ & _ & He) _].
      destruct e as [n g' d]. cbn [xnum xgen xdata] in *. destruct d as [next|off u|a b]; [apply (sf_free _ _ _ _ g' []), listed, H| |destruct He].
      subst u. destruct H as (pos & o' & P1 & _). apply (sf_other _ _ _ _ pos g' []); [apply listed, P1|]. intros ->. apply (Hno o). exists off. exact Hin.
    + apply sf_unknown. intros x row [<-|[]] Hr. apply Hin. apply (in_map fst) in Hr. rewrite H3 in Hr. exact Hr.
Qed.

(** Such a document can always be written ... *)
Theorem C97_write_succeeds_partial : forall v l trailer, saveable_document l -> exists file, write_document v l trailer = Ok file.
Proof. exact document_writes. Qed.

(** ... and the library itself, opening the file, gives every object as it was. *)
Theorem C97_reopened_partial : forall decode left fuel v l trailer file, saveable_document l -> writable (ODict trailer) ->
  (forall x, ~ In (str "Prev", x) trailer) -> (forall x, ~ In (str "XRefStm", x) trailer) ->
  write_document v l trailer = Ok file -> (Z.of_nat (List.length file) <= 10 ^ 10)%Z -> (1 <= fuel)%nat ->
  exists c, initialize parser_dictionary decode fuel left file = Ok (v, ByTable c) /\
    forall n g o, has l n g o -> exists o', (forall k, (2 <= k)%nat -> get_object k file c n g = Ok o') /\
      match o with
      | OStream m data => exists m', o' = OStream m' data /\ forall k x, k <> str "Length" -> In (k, x) m <-> In (k, x) m'
      | _ => o' = o
      end.
Proof.
  intros decode left fuel v l trailer file Hd Ht Hp Hx Hw Hlen Hf. destruct (C97_written_partial v l trailer file Hd Ht Hp Hx Hw Hlen) as (r & H1 & _ & H3 & _).
  destruct (Conforming.C92_opened decode file v [r] left fuel H1 ltac:(cbn; lia)) as (c & E & _). exists c. split; [exact E|].
  intros n g o Ho. destruct (H3 n g o Ho) as (o' & S1 & S2). exists o'. split.
  - apply (Conforming.C92_objects_partial decode file v [r] left fuel c H1 ltac:(cbn; lia) E n g o' S1).
    intros newer s older off E2 _ x row Hin. destruct newer as [|y newer]; [destruct Hin|]. injection E2 as _ E2. destruct newer; discriminate E2.
  - destruct S2 as [o Hw2|m m' data Hk _ _]; [destruct Hw2; reflexivity|]. exists m'. auto.
Qed.

(** The writer of C21 and C36, which is for lengths that are no references, is this one. *)
Theorem C97_direct_lengths : forall v l trailer,
  (forall e m data n g, In (e, OStream m data) l -> sm_find (str "Length") m <> Some (ORef n g)) ->
  write_document v l trailer = write_table_file v l trailer.
Proof. intros v l trailer H. unfold write_document, write_table_file. rewrite (set_lengths_direct l l H). reflexivity. Qed.

(** The part that does not hold: a stream whose length refers to an object that is not there makes the save of the whole document fail,
    although the data of the stream is known and a length could be written. *)
Theorem C97_missing_length_refuted : forall v l trailer num gen m data n g,
  has l num gen (OStream m data) -> sm_find (str "Length") m = Some (ORef n g) -> (forall o, ~ has l n g o) ->
  forall file, write_document v l trailer <> Ok file.
Proof.
  intros v l trailer num gen m data n g (off & Hin) Hf Hno file H. unfold write_document in H. apply rbind_ok in H. destruct H as (l1 & H & _).
  destruct (set_lengths_each _ _ _ H _ _ off true Hin eq_refl) as (o' & Ho). cbn [set_length] in Ho. rewrite Hf in Ho. unfold length_value in Ho.
  rewrite (find_object_none l n g Hno) in Ho. discriminate Ho.
Qed.

(** ** A concrete document: object 5 is the length of the streams 4, for which it is right, and 6, for which it is wrong; 7 has none *)
Definition used (n g : N) (o : obj) : xentry * obj := ({| xnum := n; xgen := g; xdata := KUsed 0 true |}, o).
Definition freed (n g : N) : xentry * obj := ({| xnum := n; xgen := g; xdata := KFree 0 |}, ONull).
Definition case_document : list (xentry * obj) :=
  [freed 0 65535; used 1 0 (ODict [(str "Pages", ORef 4 0)]);
   used 4 0 (OStream [(str "Kind", OInt 1); (str "Length", ORef 5 0)] (str "q Q")); used 5 0 (OInt 3);
   used 6 0 (OStream [(str "Length", ORef 5 0)] (str "BT ET")); used 7 0 (OStream [] [])].
Definition case_trailer : list (bytes * obj) := [(str "Root", ORef 1 0)].
Definition case_file : bytes := Eval vm_compute in match write_document PDF14 case_document case_trailer with Ok b => b | _ => [] end.
Definition no_filter (_ : list (bytes * obj)) (_ : bytes) : res bytes := Throw EGeneral.
Definition case_chain : chain := Eval vm_compute in match initialize parser_dictionary no_filter 1 [] case_file with Ok (_, ByTable c) => c | _ => [] end.
Ltac doc_cases H := unfold case_document in H; cbn [In] in H; repeat match type of H with _ \/ _ => destruct H as [H|H] | False => destruct H end;
  apply pair_equal_spec in H; destruct H as [<- <-].
Lemma case_saveable : saveable_document case_document.
Proof.
  split; [|split; [vm_compute; reflexivity|split]].
  - unfold case_document. cbn [map fst xnum used freed]. repeat (apply SSorted_cons; [|repeat (apply Forall_cons; [reflexivity|]); apply Forall_nil]). apply SSorted_nil.
  - intros e o next H Hd. doc_cases H; cbn [xdata] in Hd; try discriminate Hd. assert (next = 0) by congruence. subst next. reflexivity.
  - intros e o H. doc_cases H; (split; [repeat split; cbn; lia || reflexivity|]); intros off _; try (apply sv_direct; Save.write_it; fail).
    + apply sv_stream; [Save.write_it|vm_compute; reflexivity|]. intros x Hx. right. cbn [In] in Hx. destruct Hx as [Hx|[Hx|[]]]; [apply (f_equal fst) in Hx; vm_compute in Hx; discriminate Hx|].
      apply (f_equal snd) in Hx. cbn [snd] in Hx. exists 5, 0, 3%Z. split; [congruence|]. split; [|lia]. exists 0%Z. unfold case_document. cbn [In used]. tauto.
    + apply sv_stream; [Save.write_it|vm_compute; reflexivity|]. intros x Hx. right. cbn [In] in Hx. destruct Hx as [Hx|[]].
      apply (f_equal snd) in Hx. cbn [snd] in Hx. exists 5, 0, 3%Z. split; [congruence|]. split; [|lia]. exists 0%Z. unfold case_document. cbn [In used]. tauto.
    + apply sv_stream; [Save.write_it|vm_compute; reflexivity|]. intros x [].
Qed.
Example C97_case : saveable_document case_document /\ writable (ODict case_trailer) /\ write_document PDF14 case_document case_trailer = Ok case_file /\
  exists r, conforming case_file PDF14 [r] /\
    stands_for case_file [r] 4 0 (OStream [(str "Kind", OInt 1); (str "Length", ORef 5 0)] (str "q Q")) /\ stands_for case_file [r] 5 0 (OInt 3) /\
    stands_for case_file [r] 6 0 (OStream [(str "Length", OInt 5)] (str "BT ET")).
Proof.
  assert (Ht : writable (ODict case_trailer)) by (unfold case_trailer; Save.write_it).
  assert (Ew : write_document PDF14 case_document case_trailer = Ok case_file) by (vm_compute; reflexivity).
  split; [exact case_saveable|]. split; [exact Ht|]. split; [exact Ew|].
  destruct (document_written PDF14 case_document case_trailer case_file case_saveable Ht) as (r & H1 & _ & H3); [..|exact Ew|vm_compute; discriminate|].
  { intros x Hx. cbn [In case_trailer] in Hx. destruct Hx as [Hx|[]]. apply (f_equal fst) in Hx. vm_compute in Hx. discriminate Hx. }
  { intros x Hx. cbn [In case_trailer] in Hx. destruct Hx as [Hx|[]]. apply (f_equal fst) in Hx. vm_compute in Hx. discriminate Hx. }
  exists r. split; [exact H1|].
  destruct (Conforming.C92_opened no_filter case_file PDF14 [r] [] 1 H1 ltac:(cbn; lia)) as (c & E & _).
  assert (G : forall n o', (exists o, has case_document n 0 o) -> get_object 2 case_file c n 0 = Ok o' -> stands_for case_file [r] n 0 o').
  { intros n o' (o & off & Hin) Hg. assert (Hs : exists x, stands_for case_file [r] n 0 x).
    { destruct H3 as [A B]. assert (B' := B _ _ Hin). cbn [xdata xnum xgen] in B'. destruct B' as (pos & x & P1 & P2 & _). exists x.
      apply (sf_object _ _ _ _ pos []); [apply listed, P1|apply (object_in_file case_file case_document case_trailer r []); [split; assumption|exact P2]]. }
    destruct Hs as (x & Hx). assert (E2 : get_object 2 case_file c n 0 = Ok x).
    { apply (Conforming.C92_objects_partial no_filter case_file PDF14 [r] [] 1 c H1 ltac:(cbn; lia) E n 0 x Hx); [|lia].
      intros newer s older o2 E2 _ y row Hy. destruct newer as [|z newer]; [destruct Hy|]. injection E2 as _ E2. destruct newer; discriminate E2. }
    rewrite Hg in E2. apply Ok_inj in E2. rewrite E2. exact Hx. }
  assert (E' : initialize parser_dictionary no_filter 1 [] case_file = Ok (PDF14, ByTable case_chain)) by (vm_compute; reflexivity).
  rewrite E' in E. assert (Ec : case_chain = c) by congruence. subst c.
  assert (G1 : get_object 2 case_file case_chain 4 0 = Ok (OStream [(str "Kind", OInt 1); (str "Length", ORef 5 0)] (str "q Q"))) by (vm_compute; reflexivity).
  assert (G2 : get_object 2 case_file case_chain 5 0 = Ok (OInt 3)) by (vm_compute; reflexivity).
  assert (G3 : get_object 2 case_file case_chain 6 0 = Ok (OStream [(str "Length", OInt 5)] (str "BT ET"))) by (vm_compute; reflexivity).
  split; [|split]; (apply G; [eexists; exists 0%Z; unfold case_document, used; cbn [In]; repeat first [left; reflexivity | right]|assumption]).
Qed.

Print Assumptions C97_written_partial.
Print Assumptions C97_write_succeeds_partial.
Print Assumptions C97_reopened_partial.
Print Assumptions C97_direct_lengths.
Print Assumptions C97_missing_length_refuted.

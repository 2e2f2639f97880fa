(** C70: the field and the form Document::Sign puts around a signature. *)
From Coq Require Import List NArith ZArith Bool Lia String.
From Verif.Model Require Import Base Token Buffer Equality PageTree Append SignForm.
From Verif.Spec Require Import SignForm.
From Verif.Proof Require Import Tac SignForm.
Import ListNotations.
Local Open Scope N_scope.

(** Signing succeeds in making the objects whenever the document has a first page, its form entries have the types they should have and there is room
    for three more objects. *)
Theorem C70_succeeds : forall alloc limit b fuel signature d r p, fresh_numbers alloc -> room alloc limit -> unused_from b (d_objects d) -> b + 2 <= limit -> signable fuel d r p ->
  exists d' s f, sign_objects alloc fuel signature d = (d', Ok (s, f)).
Proof. exact run_success. Qed.

(** Then the signature dictionary and a signature field with it on the first page are new objects, and the field is the last annotation of the page and
    the last field of the form; nothing else is added to either.  Missing: the array shared by both (below). *)
Theorem C70_field_added_partial : forall alloc fuel signature d r p d' s f, fresh_numbers alloc -> signable fuel d r p -> ~ shared_array (d_objects d) r p ->
  sign_objects alloc fuel signature d = (d', Ok (s, f)) ->
  d_root d' = Some r /\ first_page_of fuel (d_objects d') r p /\
  d_objects d s = None /\ d_objects d f = None /\ s <> f /\
  d_objects d' s = Some signature /\ signature_field (d_objects d') f p s /\
  form_fields (d_objects d') r = form_fields (d_objects d) r ++ [VRef f 0] /\
  page_annotations (d_objects d') p = page_annotations (d_objects d) p ++ [VRef f 0].
Proof.
  intros alloc fuel signature d r p d' s f Hf Hs Hn H. destruct (run_outcome _ _ _ _ _ _ _ _ _ Hf Hs H) as [S O]. destruct O as [O1 O2 O3 O4 O5 O6 O7 O8 O9 O10 O11].
  destruct S as (R & (t & l & m & c & T1 & T2 & T3 & T4 & T5 & T6) & _). destruct (O10 Hn) as [A B].
  split; [exact R|]. split; [exists t, l; auto|]. auto 10.
Qed.
(** If the annotations of the page and the fields of the form are one array of the file, the field is in it twice. *)
Theorem C70_shared_refuted : forall alloc fuel signature d r p d' s f, fresh_numbers alloc -> signable fuel d r p -> shared_array (d_objects d) r p ->
  sign_objects alloc fuel signature d = (d', Ok (s, f)) -> form_fields (d_objects d') r = form_fields (d_objects d) r ++ [VRef f 0; VRef f 0].
Proof. intros alloc fuel signature d r p d' s f Hf Hs Hn H. destruct (run_outcome _ _ _ _ _ _ _ _ _ Hf Hs H) as [_ O]. exact (o_shared _ _ _ _ _ _ _ O Hn). Qed.
(** The flags SignaturesExist and AppendOnly are set, all other flags are as they were. *)
Theorem C70_flags : forall alloc fuel signature d r p d' s f, fresh_numbers alloc -> signable fuel d r p -> sign_objects alloc fuel signature d = (d', Ok (s, f)) ->
  forall i, (0 <= i < 64)%Z -> flag_bit (d_objects d') r i = (i =? 0)%Z || (i =? 1)%Z || flag_bit (d_objects d) r i.
Proof. intros alloc fuel signature d r p d' s f Hf Hs H. destruct (run_outcome _ _ _ _ _ _ _ _ _ Hf Hs H) as [_ O]. exact (o_flags _ _ _ _ _ _ _ O). Qed.
(** What was in the document stays: objects that are neither the catalog, nor the page, nor belong to the form or the annotations are the same, and the
    others lose nothing: only the entries of the form and the annotations change, arrays only grow by the field, numbers keep their higher bits. *)
Theorem C70_nothing_lost : forall alloc fuel signature d r p d' s f, fresh_numbers alloc -> signable fuel d r p -> sign_objects alloc fuel signature d = (d', Ok (s, f)) ->
  (forall n v, d_objects d n = Some v -> exists v', d_objects d' n = Some v' /\ keeps f v v') /\
  (forall n, d_objects d n <> None -> ~ involved (d_objects d) r p n -> d_objects d' n = d_objects d n).
Proof.
  intros alloc fuel signature d r p d' s f Hf Hs H. destruct (run_outcome _ _ _ _ _ _ _ _ _ Hf Hs H) as [_ O]. split; [|exact (o_frame _ _ _ _ _ _ _ O)].
  intros n v E. apply (o_kept _ _ _ _ _ _ _ O); [congruence|exact E].
Qed.
(** Every page there was is there, under the same index and in the same object, and no page is added. *)
Theorem C70_pages : forall alloc fuel signature d r p d' s f root, fresh_numbers alloc -> signable fuel d r p -> sign_objects alloc fuel signature d = (d', Ok (s, f)) ->
  (forall c, page_count (nodes (d_objects d)) root = Ok c -> page_count (nodes (d_objects d')) root = Ok c) /\
  (forall fuel' i n, get_page fuel' (nodes (d_objects d)) root i = Ok n -> get_page fuel' (nodes (d_objects d')) root i = Ok n).
Proof.
  intros alloc fuel signature d r p d' s f root Hf Hs H. destruct (run_outcome _ _ _ _ _ _ _ _ _ Hf Hs H) as [_ O]. assert (NX := kept_nodes _ _ _ (o_kept _ _ _ _ _ _ _ O)).
  split; [intros c; apply page_count_ext; exact NX|]. intros fuel' i n. apply get_page_ext. exact NX.
Qed.
(** A document can be signed again, but a field of a second signing has the name of the first one: siblings shall have different names
    (ISO 32000-1, 12.7.3.2), and readers take both for one field. *)
Lemma kept_name : forall f h h' n l b, keeps f (VDict l) (VDict b) -> h n = Some (VDict l) -> h' n = Some (VDict b) -> entry_get (str "T") l = Some (VStr false (str "Signature1")) ->
  field_name h' n = Some (str "Signature1").
Proof.
  intros f h h' n l b K E E' G. unfold field_name. cbn [leads deref]. rewrite E'. assert (G' : entry_get (str "T") b = entry_get (str "T") l).
  { inversion K; subst; [reflexivity|]. apply H1. apply key_notin. reflexivity. }
  rewrite G', G. reflexivity.
Qed.
Lemma own_name : forall h f, (exists l, h f = Some (VDict l) /\ entry_get (str "T") l = Some (VStr false (str "Signature1"))) -> field_name h f = Some (str "Signature1").
Proof. intros h f (l & E & G). unfold field_name. cbn [leads deref]. rewrite E, G. reflexivity. Qed.
Lemma last_field : forall h h' r p s f sig, outcome h h' r p s f sig -> exists t, form_fields h' r = form_fields h r ++ VRef f 0 :: t.
Proof.
  intros h h' r p s f sig O. destruct (shared_dec h r p) as [T|T].
  - exists [VRef f 0]. rewrite (o_shared _ _ _ _ _ _ _ O T). reflexivity.
  - exists []. apply (o_apart _ _ _ _ _ _ _ O T).
Qed.
Theorem C70_same_name_refuted : forall alloc fuel signature1 signature2 d r p d1 s1 f1 d2 s2 f2, fresh_numbers alloc -> signable fuel d r p ->
  sign_objects alloc fuel signature1 d = (d1, Ok (s1, f1)) -> sign_objects alloc fuel signature2 d1 = (d2, Ok (s2, f2)) ->
  f1 <> f2 /\ field_name (d_objects d2) f1 = Some (str "Signature1") /\ field_name (d_objects d2) f2 = Some (str "Signature1") /\
  In (VRef f1 0) (form_fields (d_objects d2) r) /\ In (VRef f2 0) (form_fields (d_objects d2) r).
Proof.
  intros alloc fuel signature1 signature2 d r p d1 s1 f1 d2 s2 f2 Hf Hs H1 H2.
  destruct (run_outcome _ _ _ _ _ _ _ _ _ Hf Hs H1) as [S1 O1]. destruct (run_outcome _ _ _ _ _ _ _ _ _ Hf S1 H2) as [S2 O2].
  destruct (last_field _ _ _ _ _ _ _ O1) as (t1 & E1). destruct (last_field _ _ _ _ _ _ _ O2) as (t2 & E2).
  assert (F1 := o_named _ _ _ _ _ _ _ O1).
  split; [|split; [|split; [apply own_name; exact (o_named _ _ _ _ _ _ _ O2)|]]].
  - intros ->. assert (T := o_f _ _ _ _ _ _ _ O2). destruct (o_field _ _ _ _ _ _ _ O1) as (l & E & _). congruence.
  - destruct F1 as (l & E & GT). destruct (o_kept _ _ _ _ _ _ _ O2 f1 (VDict l)) as (v' & E' & K); [congruence|exact E|]. assert (exists b, v' = VDict b) as (b & ->) by (inversion K; eauto).
    eapply kept_name; eassumption.
  - rewrite E2, E1. split; apply in_or_app; [left; apply in_or_app|]; right; left; reflexivity.
Qed.

(** The objects are made before the file is written.  If writing fails the call reports it, but the document in memory has the field and the
    flags of a signature that was never made; signing again adds a second one. *)
Theorem C70_failed_signing_refuted : forall alloc fuel signature (written : doc -> N -> res unit) e d r p d1 s f, fresh_numbers alloc -> signable fuel d r p ->
  sign_objects alloc fuel signature d = (d1, Ok (s, f)) -> (forall x n, written x n = Throw e) ->
  sign_call alloc fuel signature written d = (d1, Throw e) /\
  d_objects d f = None /\ signature_field (d_objects d1) f p s /\ In (VRef f 0) (form_fields (d_objects d1) r) /\
  flag_bit (d_objects d1) r 0 = true /\ flag_bit (d_objects d1) r 1 = true /\
  (forall d2 s2 f2, sign_objects alloc fuel signature d1 = (d2, Ok (s2, f2)) ->
     f2 <> f /\ In (VRef f 0) (form_fields (d_objects d2) r) /\ In (VRef f2 0) (form_fields (d_objects d2) r)).
Proof.
  intros alloc fuel signature written e d r p d1 s f Hf Hs H Hw. destruct (run_outcome _ _ _ _ _ _ _ _ _ Hf Hs H) as [S O]. destruct (last_field _ _ _ _ _ _ _ O) as (t & E).
  split; [unfold sign_call; rewrite H, Hw; reflexivity|]. split; [exact (o_f _ _ _ _ _ _ _ O)|]. split; [exact (o_field _ _ _ _ _ _ _ O)|]. split; [rewrite E; apply in_or_app; right; left; reflexivity|].
  split; [rewrite (o_flags _ _ _ _ _ _ _ O) by lia; reflexivity|]. split; [rewrite (o_flags _ _ _ _ _ _ _ O) by lia; reflexivity|].
  intros d2 s2 f2 H2. destruct (C70_same_name_refuted _ _ _ _ _ _ _ _ _ _ _ _ _ Hf Hs H H2) as (N & _ & _ & I1 & I2). split; [congruence|]. auto.
Qed.
(** A document without pages is not signed: the call reports an error.  The signature dictionary stays behind as an object nothing refers to. *)
Theorem C70_no_pages : forall alloc fuel signature d r l s, fresh_numbers alloc -> d_root d = Some r -> d_objects d r = Some (VDict l) -> alloc (d_objects d) = Ok s ->
  (entry_get (str "Pages") l = None \/
   exists t m, entry_get (str "Pages") l = Some (VRef t 0) /\ d_objects d t = Some (VDict m) /\ page_count (nodes (d_objects d)) t = Ok 0) ->
  exists d', sign_objects alloc fuel signature d = (d', Throw EGeneral) /\ d_root d' = d_root d /\ d_objects d' s = Some signature /\ (forall n, n <> s -> d_objects d' n = d_objects d n).
Proof.
  intros alloc fuel signature d r l s Hf Hr Hl A Hp. eexists. unfold sign_objects. rewrite (bind_go _ _ _ _ _ _ _ (allocate_total alloc signature d s A)). cbv beta. apply Hf in A.
  set (d1 := Build_doc _ _). assert (Hl1 : d_objects d1 r = Some (VDict l)) by (apply put_old; assumption).
  rewrite (bind_go _ _ _ _ _ d1 r) by (eapply catalog_some; [exact Hr|rewrite read_top; exact Hl1]).
  assert (E : first_page fuel r d1 = (d1, Throw EGeneral)).
  { unfold first_page. rewrite (bind_go _ _ _ _ _ d1 l) by (apply dict_total; rewrite read_top; exact Hl1). unfold has. destruct Hp as [G|(t & m & G & T & C)]; rewrite G; [reflexivity|cbv beta iota].
    rewrite (bind_go place _ _ _ _ d1 (t, [])) by (eapply find_total; [rewrite read_top; exact Hl1|exact G|cbn [place_of]; auto]).
    assert (T1 : read (d_objects d1) (t, []) = Some (VDict m)) by (rewrite read_top; apply put_old; assumption).
    rewrite (bind_go _ _ _ _ _ d1 m) by (apply dict_total; exact T1).
    rewrite (bind_go _ _ _ _ _ d1 0) by (unfold lift; f_equal; eapply page_count_ext; [apply put_ext; exact A|exact C]). reflexivity. }
  unfold bind at 1. rewrite E. split; [reflexivity|]. split; [reflexivity|]. split; [unfold d1; cbn [d_objects]; rewrite put_get, N.eqb_refl; reflexivity|].
  intros n Hn. unfold d1. cbn [d_objects]. rewrite put_get. apply N.eqb_neq in Hn. rewrite Hn. reflexivity.
Qed.

(** ** A document with one page, its annotations in an array of their own, and a form with a flag *)
Definition pick (limit : nat) (h : objects) : res N :=
  match find (fun n => match h n with None => true | Some _ => false end) (map N.of_nat (seq 1 limit)) with Some n => Ok n | None => Throw EGeneral end.
Lemma pick_fresh : forall limit, fresh_numbers (pick limit).
Proof.
  intros limit h n H. unfold pick in H. destruct (find _ _) as [m|] eqn:E; [|discriminate]. injection H as <-. apply find_some in E. destruct E as [_ E]. destruct (h m); [discriminate|reflexivity].
Qed.
Lemma pick_room : forall limit, room (pick limit) (N.of_nat limit).
Proof.
  intros limit b h Hb Hl Hu. unfold pick. destruct (find _ _) as [m|] eqn:E.
  - exists m. split; [reflexivity|]. destruct (N.le_gt_cases m b) as [L|L]; [exact L|exfalso].
    revert E. assert (In b (map N.of_nat (seq 1 limit))) as I by (apply in_map_iff; exists (N.to_nat b); split; [lia|apply in_seq; lia]).
    clear Hb Hl. assert (S : forall k a, In b (map N.of_nat (seq a k)) -> b < m -> find (fun n => match h n with None => true | Some _ => false end) (map N.of_nat (seq a k)) <> Some m).
    { clear I. induction k as [|k IH]; intros a I Lb; cbn [seq map find]; [discriminate|]. destruct (h (N.of_nat a)) eqn:Ha.
      - cbn [seq map In] in I. destruct I as [I|I]; [subst b; rewrite Hu in Ha by lia; discriminate|]. apply IH; assumption.
      - intros [= <-]. cbn [seq map In] in I. destruct I as [I|I]; [lia|]. apply in_map_iff in I. destruct I as (x & Ex & Ix). apply in_seq in Ix. lia. }
    apply S; assumption.
  - exfalso. assert (I : In b (map N.of_nat (seq 1 limit))) by (apply in_map_iff; exists (N.to_nat b); split; [lia|apply in_seq; lia]).
    assert (T := find_none _ _ E b I). cbv beta in T. rewrite Hu in T by lia. discriminate.
Qed.
Definition sample : doc := {|
  d_objects := fun n =>
    if n =? 1 then Some (VDict [(str "Type", VName (str "Catalog")); (str "Pages", VRef 2 0); (str "AcroForm", VDict [(str "SigFlags", VInt (QSigned 4))])])
    else if n =? 2 then Some (VDict [(str "Type", VName (str "Pages")); (str "Kids", VArr [VRef 3 0]); (str "Count", VInt (QSigned 1))])
    else if n =? 3 then Some (VDict [(str "Type", VName (str "Page")); (str "Parent", VRef 2 0); (str "Annots", VRef 4 0)])
    else if n =? 4 then Some (VArr [VNull]) else None;
  d_root := Some 1 |}.
Lemma sample_signable : signable 10 sample 1 3.
Proof.
  split; [reflexivity|]. split; [eexists 2, _, _, 1; repeat split; reflexivity|]. split; [eexists; reflexivity|]. split; [|].
  - intros l u D G. injection D as <-. vm_compute in G. injection G as <-. split; [intros n g [= _ <-]; reflexivity|]. eexists. split; [reflexivity|]. eexists. reflexivity.
  - intros l u D G. injection D as <-. vm_compute in G. injection G as <-. split; [discriminate|]. eexists. split; [reflexivity|]. eexists. split; [reflexivity|]. split.
    + intros l u D G. injection D as <-. vm_compute in G. injection G as <-. split; [discriminate|]. eexists. split; [reflexivity|]. exists 4%Z. split; [reflexivity|split; [discriminate|reflexivity]].
    + intros l u D G. injection D as <-. vm_compute in G. discriminate G.
Qed.
Definition once : doc := fst (sign_objects (pick 20) 10 (VDict []) sample).
Definition twice : doc := fst (sign_objects (pick 20) 10 (VDict []) once).
Example C70_case :
  snd (sign_objects (pick 20) 10 (VDict []) sample) = Ok (5, 6) /\ snd (sign_objects (pick 20) 10 (VDict []) once) = Ok (7, 8) /\
  unused_from 5 (d_objects sample) /\ ~ shared_array (d_objects sample) 1 3 /\
  page_annotations (d_objects once) 3 = [VNull; VRef 6 0] /\ form_fields (d_objects once) 1 = [VRef 6 0] /\
  form_fields (d_objects twice) 1 = [VRef 6 0; VRef 8 0] /\
  leads (d_objects once) (VRef 1 0) [str "AcroForm"; str "SigFlags"] = Some (VInt (QSigned 7)) /\
  d_objects once 2 = d_objects sample 2 /\ ~ involved (d_objects sample) 1 3 2.
Proof.
  split; [vm_compute; reflexivity|]. split; [vm_compute; reflexivity|]. split.
  { intros n Hn. unfold sample. cbn [d_objects]. replace (n =? 1) with false by lia. replace (n =? 2) with false by lia. replace (n =? 3) with false by lia. replace (n =? 4) with false by lia. reflexivity. }
  split.
  { intros (n & g & g' & l & m & _ & _ & L & G). vm_compute in L. injection L as <-. vm_compute in G. discriminate. }
  split; [vm_compute; reflexivity|]. split; [vm_compute; reflexivity|]. split; [vm_compute; reflexivity|]. split; [vm_compute; reflexivity|]. split; [vm_compute; reflexivity|].
  intros [H|[H|[(l & g & E & G)|[(l & g & E & G)|(l & g & k & L & [-> | ->] & G)]]]]; try discriminate.
  - injection E as <-. vm_compute in G. discriminate.
  - injection E as <-. vm_compute in G. discriminate.
  - vm_compute in L. injection L as <-. vm_compute in G. discriminate.
  - vm_compute in L. injection L as <-. vm_compute in G. discriminate.
Qed.
(** the same with one array for both *)
Definition shared_sample : doc := {|
  d_objects := fun n =>
    if n =? 1 then Some (VDict [(str "Pages", VRef 2 0); (str "AcroForm", VRef 5 0)]) else if n =? 5 then Some (VDict [(str "Fields", VRef 4 0)]) else d_objects sample n;
  d_root := Some 1 |}.
Example C70_shared_case :
  snd (sign_objects (pick 20) 10 (VDict []) shared_sample) = Ok (6, 7) /\ shared_array (d_objects shared_sample) 1 3 /\
  form_fields (d_objects (fst (sign_objects (pick 20) 10 (VDict []) shared_sample))) 1 = [VNull; VRef 7 0; VRef 7 0].
Proof.
  split; [vm_compute; reflexivity|]. split; [|vm_compute; reflexivity].
  exists 4, 0, 0, [(str "Type", VName (str "Page")); (str "Parent", VRef 2 0); (str "Annots", VRef 4 0)], [(str "Fields", VRef 4 0)]. repeat split; reflexivity.
Qed.
Definition empty_sample : doc := {| d_objects := fun n => if n =? 1 then Some (VDict []) else None; d_root := Some 1 |}.
Example C70_empty_case : pick 20 (d_objects empty_sample) = Ok 2 /\ snd (sign_objects (pick 20) 10 (VDict []) empty_sample) = Throw EGeneral.
Proof. split; vm_compute; reflexivity. Qed.

Print Assumptions C70_succeeds.
Print Assumptions C70_field_added_partial.
Print Assumptions C70_shared_refuted.
Print Assumptions C70_flags.
Print Assumptions C70_nothing_lost.
Print Assumptions C70_pages.
Print Assumptions C70_same_name_refuted.
Print Assumptions C70_failed_signing_refuted.
Print Assumptions C70_no_pages.

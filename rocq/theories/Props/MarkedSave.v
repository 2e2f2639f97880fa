(** C101: the file of an unlicensed save follows the standard and shows the marked document. *)
From Coq Require Import List NArith ZArith Bool Lia String Sorted.
From Coq Require Import List.
From Verif.Model Require Import StreamFile StreamBody.
From Verif.Proof Require StandardSave.
From Verif.Props Require Import Update StreamFile Written WrittenStream Watermark.
From Coq Require Import List.
From Verif.Model Require Import Base Numbers SMap Object Equality Token Xref Header FileWrite Chain Merge Update Watermark MarkedSave.
From Verif.Spec Require Import Strings Grammar FileWrite Chain Update StreamFile Conforming Watermark Written MarkedSave.
From Verif.Proof Require Import Tac Strings StreamObj SMap FileWrite Chain Update Watermark MarkedSave.
Import ListNotations.
Local Open Scope N_scope.

(** For every document that can be saved, with a page tree, and every pair of filters that fit together: the file that is saved without a
    license follows the standard, and by the standard's reading it holds the document with one more object, the font: other objects are
    the same but for the new entries of their dictionaries, every content stream has the mark of the pages it begins and ends, once for
    each, the other streams have the data they had, and every other number stands for null.  Missing: cross-reference streams, and Kids
    that are direct dictionaries. *)
Theorem C101_saved_partial : forall supported encode decode real text image fuel v items trailer kids file,
  codec supported encode decode -> section_saveable (items, trailer) -> short_links (items, trailer) -> (forall x, ~ In (str "Prev", x) trailer) ->
  N.of_nat (S (List.length items)) < 2 ^ 63 -> (forall e off m data, In (e, OStream m data) items -> xdata e = KUsed off true -> supported m) ->
  root_kids (object_of items) trailer kids ->
  write_marked real text image decode encode fuel v items trailer = Ok file -> (Z.of_nat (List.length file) <= 10 ^ 10)%Z ->
  exists r font items1 nodes,
    conforming file v [r] /\ same_trailer trailer (r_trailer r) /\ font_added items items1 font /\ page_nodes (object_of items1) kids nodes /\
    (forall e o off, In (e, o) items1 -> xdata e = KUsed off true ->
       exists o', stands_for file [r] (xnum e) (xgen e) o' /\
         match o with
         | OStream m data => exists m' data', o' = OStream m' data' /\
             stream_marked real text image decode (object_of items1) nodes (xnum e, xgen e) m m' data data'
         | _ => grown (ORef font 0) 3 o o'
         end) /\
    (forall n g, (forall e o off, In (e, o) items1 -> xdata e = KUsed off true -> xnum e = n -> xgen e <> g) -> stands_for file [r] n g ONull).
Proof.
  intros supported encode decode real text image fuel v items trailer kids file Hcd Hs Hk Hp Hlen Hsup Hroot Hw Hfl.
  unfold write_marked in Hw. rewrite (root_kids_has (document_of decode items) trailer kids Hroot) in Hw.
  apply rbind_ok in Hw. destruct Hw as ([i c'] & Ea & Hw). apply allocated in Ea. rename Ea into Hfirst.
  apply rbind_ok in Hw. destruct Hw as (d2 & Eapply & Hw). apply rbind_ok in Hw. destruct Hw as (items2 & Em & Hw).
  set (items1 := padd (new_entry i, helvetica) items) in *. set (d1 := document_of decode items1) in *.
  assert (Hin1 : forall p, In p items1 <-> p = (new_entry i, helvetica) \/ In p items) by (apply items1_in; exact Hfirst).
  assert (Hso : StronglySorted N.lt (map (fun p => xnum (fst p)) items1)) by (eapply items1_sorted; exact Hs).
  assert (Hnd := sorted_distinct _ Hso).
  assert (Ht : forall n g, tidy (d_objects d1 n g)) by (eapply items1_tidy; eassumption).
  assert (Hroot1 : root_kids (d_objects d1) trailer kids).
  { eapply root_kids_more; [|exact Hroot]. intros n g Hn. destruct (object_listed items n g Hn) as (e & off & Hin & Hd & <- & <-). unfold d1, document_of. cbn [d_objects].
    apply (object_found items1 e _ off Hnd); [apply Hin1; right; exact Hin|exact Hd]. }
  destruct (C100_bodies _ _ _ _ _ _ _ _ _ Ht Hroot1 Eapply) as (nodes & Pn & Hb).
  assert (Hs2 : section_saveable (items2, trailer)) by (eapply marked_saveable; eassumption).
  destruct (C93_saved_partial v [(items2, trailer)] file) as (revs & Hc & Htr & Hnew & Hun).
  { constructor; [exact Hs2|constructor]. }
  { constructor; [|constructor]. eapply marked_links; eassumption. }
  { discriminate. }
  { intros s rest x E. assert (s = (items2, trailer)) by congruence. subst s. apply Hp. }
  { exact Hw. }
  { exact Hfl. }
  cbn [map snd] in Htr. inversion Htr as [|? t ? ts Hsame Hnil E1 E2]; subst. inversion Hnil; subst.
  assert (Er : exists r, revs = [r]).
  { assert (L : List.length (map r_trailer (rev revs)) = 1%nat) by (rewrite <- E2; reflexivity). rewrite map_length, rev_length in L. destruct revs as [|r [|r' revs]]; try discriminate L. exists r. reflexivity. }
  destruct Er as (r & ->). cbn [rev app map] in E2. assert (Et : t = r_trailer r) by congruence. subst t. clear E2 Htr Hnil.
  assert (F := mark_items_in _ _ _ _ _ _ Em).
  assert (Hnewest : forall q, In q items2 -> newest [(items2, trailer)] (fst q) (snd q)).
  { intros [e o] Hq. exists [], (items2, trailer), []. split; [reflexivity|]. split; [exact Hq|]. intros x p []. }
  exists r, i, items1, nodes. split; [exact Hc|]. split; [exact Hsame|]. split; [split; [exact Hfirst|split; [exact Hnd|exact Hin1]]|]. split; [exact Pn|]. split.
  - intros e o off Hin Hd. destruct (forall2_in _ _ _ _ _ F _ Hin) as (q & Hq & Eq).
    assert (M : match o with
      | OStream m data => exists x, q = (e, OStream m x) /\
          (d_bodies d1 (xnum e) (xgen e) = d_bodies d2 (xnum e) (xgen e) /\ x = data \/
           d_bodies d1 (xnum e) (xgen e) <> d_bodies d2 (xnum e) (xgen e) /\ decode m data = Ok (d_bodies d1 (xnum e) (xgen e)) /\ encode m (d_bodies d2 (xnum e) (xgen e)) = Ok x)
      | _ => exists o2, q = (e, o2) /\ grown (ORef i 0) 3 o o2 /\ tidy o2
      end) by (eapply item_marked; eassumption).
    assert (Hqn := Hnewest q Hq). assert (Ee := mark_item_entry _ _ _ _ _ _ Eq). cbn [fst] in Ee. rewrite Ee in Hqn.
    specialize (Hnew _ _ Hqn). rewrite Hd in Hnew. destruct Hnew as ((o' & So & Sf) & _). exists o'. split; [exact Sf|].
    assert (D : forall o2, q = (e, o2) /\ grown (ORef i 0) 3 o o2 /\ tidy o2 -> (forall m data, o <> OStream m data) -> grown (ORef i 0) 3 o o').
    { intros o2 (-> & G & _) Hns. cbn [snd] in So. assert (o' = o2); [|subst; exact G]. inversion So; subst; [reflexivity|]. exfalso.
      destruct o; try (apply grown_other in G; [discriminate G|discriminate]); [destruct (grown_dict _ _ _ _ G) as (y & Y); discriminate Y|eapply Hns; reflexivity]. }
    destruct o as [| | | | | | | | | |m data]; try (destruct M as (o2 & M); apply (D o2 M); discriminate).
    destruct M as (x & -> & M). cbn [snd] in So. inversion So as [? W|? m' ? K1 _]; subst; [inversion W|]. exists m', x. split; [reflexivity|]. split; [exact K1|].
    destruct (Hb (xnum e, xgen e)) as (marks & Fm & Eb). cbn [fst snd] in Eb.
    change (object_of items1) with (d_objects d1).
    destruct (existsb (begins (d_objects d1) (xnum e, xgen e)) nodes || existsb (ends (d_objects d1) (xnum e, xgen e)) nodes) eqn:Ex.
    + assert (Hdiff : d_bodies d1 (xnum e) (xgen e) <> d_bodies d2 (xnum e) (xgen e)).
      { rewrite Eb. intros E. apply (f_equal (@List.length _)) in E. rewrite !app_length in E. apply orb_true_iff in Ex. destruct Ex as [Ex|Ex]; apply existsb_exists in Ex; destruct Ex as (p & P1 & P2).
        - assert (X : In p (filter (begins (d_objects d1) (xnum e, xgen e)) nodes)) by (apply filter_In; split; assumption).
          destruct (filter (begins (d_objects d1) (xnum e, xgen e)) nodes); [destruct X|]. unfold saves in E. cbn [List.length repeat List.concat] in E. rewrite app_length in E. change (List.length save_line) with 2%nat in E. lia.
        - assert (X : In p (filter (ends (d_objects d1) (xnum e, xgen e)) nodes)) by (apply filter_In; split; assumption).
          destruct (filter (ends (d_objects d1) (xnum e, xgen e)) nodes); [destruct X|]. inversion Fm; subst. cbn [map List.concat] in E. rewrite !app_length in E. change (List.length restore_line) with 3%nat in E. lia. }
      destruct M as [(M & _)|(_ & M1 & M2)]; [contradiction|]. exists (d_bodies d1 (xnum e) (xgen e)), marks. split; [exact M1|]. split; [exact Fm|].
      rewrite <- Eb. apply (cd_back _ _ _ Hcd m m _ x); [|split; reflexivity|exact M2]. apply Hin1 in Hin. destruct Hin as [Hin|Hin]; [apply (f_equal snd) in Hin; discriminate Hin|exact (Hsup _ _ _ _ Hin Hd)].
    + assert (Hsm : d_bodies d1 (xnum e) (xgen e) = d_bodies d2 (xnum e) (xgen e)).
      { rewrite Eb. apply orb_false_iff in Ex. destruct Ex as (X1 & X2).
        assert (N0 : forall (t : N * N -> bool), existsb t nodes = false -> filter t nodes = []).
        { intros t X. apply filter_none. intros q Hq'. destruct (t q) eqn:T; [|reflexivity]. rewrite <- X. symmetry. apply existsb_exists. exists q. split; assumption. }
        rewrite (N0 _ X1). rewrite (N0 _ X2) in Fm. inversion Fm; subst. cbn [List.length map List.concat]. unfold saves. cbn [repeat List.concat]. rewrite app_nil_r. reflexivity. }
      destruct M as [(_ & M)|(M & _)]; [exact M|contradiction].
  - intros n g Hno. destruct (in_dec N.eq_dec n (map (fun p : xentry * obj => xnum (fst p)) items2)) as [Hl|Hl].
    + apply in_map_iff in Hl. destruct Hl as (q & En & Hq). destruct (forall2_back _ _ _ _ _ F q Hq) as ([e o] & Hin & Eq).
      assert (Ee := mark_item_entry _ _ _ _ _ _ Eq). cbn [fst] in Ee. assert (Hqn := Hnewest q Hq). rewrite Ee in Hqn, En. specialize (Hnew _ _ Hqn).
      assert (Sv : entry_saveable e).
      { destruct Hs2 as (_ & Fs & _). cbn [fst] in Fs. rewrite Forall_forall in Fs. rewrite <- Ee. apply (Fs q Hq). }
      destruct Sv as (_ & _ & Sv). rewrite <- En. destruct (xdata e) as [next|off u|k j] eqn:Ed; [apply Hnew| |destruct Sv]. subst u. apply Hnew. intros ->. eapply Hno; [exact Hin|exact Ed|exact En|reflexivity].
    + apply Hun. intros s p Hs' Hp' En. destruct Hs' as [<-|[]]. cbn [fst] in Hp'. apply Hl. rewrite <- En. apply (in_map (fun p : xentry * obj => xnum (fst p)) _ _ Hp').
Qed.

(** A reference to an object that the document does not have means null; when its number is the one that the font gets, the reference
    means the font in the file that is saved. *)
Theorem C101_dangling_refuted : forall supported encode decode real text image fuel v items trailer kids file n,
  codec supported encode decode -> section_saveable (items, trailer) -> short_links (items, trailer) -> (forall x, ~ In (str "Prev", x) trailer) ->
  N.of_nat (S (List.length items)) < 2 ^ 63 -> (forall e off m data, In (e, OStream m data) items -> xdata e = KUsed off true -> supported m) ->
  root_kids (object_of items) trailer kids ->
  write_marked real text image decode encode fuel v items trailer = Ok file -> (Z.of_nat (List.length file) <= 10 ^ 10)%Z ->
  first_unlisted items n ->
  object_of items n 0 = ONull /\
  exists r m, conforming file v [r] /\ stands_for file [r] n 0 (ODict m) /\ sm_find (str "Type") m = Some (OName (str "Font")).
Proof.
  intros supported encode decode real text image fuel v items trailer kids file n Hcd Hs Hk Hp Hlen Hsup Hroot Hw Hfl [Hn1 Hn2]. split.
  - destruct (object_of items n 0) eqn:E; [reflexivity|..]; (destruct (object_listed items n 0 ltac:(unfold item_object; unfold object_of in E; rewrite E; discriminate)) as (e & off & Hin & _ & En & _); exfalso; apply Hn1; eexists; split; [exact Hin|exact En]).
  - destruct (C101_saved_partial supported encode decode real text image fuel v items trailer kids file Hcd Hs Hk Hp Hlen Hsup Hroot Hw Hfl) as (r & font & items1 & nodes & Hc & _ & ([F1 F2] & _ & Hin) & _ & Ho & _).
    assert (font = n).
    { destruct (N.lt_total font n) as [L|[L|L]]; [exfalso; apply F1, Hn2, L|exact L|exfalso; apply Hn1, F2, L]. }
    subst font. destruct (Ho {| xnum := n; xgen := 0; xdata := KUsed (-1) true |} font_dictionary (-1)%Z) as (o' & Sf & G); [apply Hin; left; reflexivity|reflexivity|].
    unfold font_dictionary in G. destruct (grown_dict _ _ _ _ G) as (m & ->). exists r, m. split; [exact Hc|]. split; [exact Sf|].
    assert (X := grown_find _ _ _ _ (str "Type") (str_bytes _) G). destruct (sm_find (str "Type") m) as [x|] eqn:E; [|destruct X].
    assert (Y : grown (ORef n 0) 2 (OName (str "Font")) x) by exact X. apply grown_other in Y; [subst x; reflexivity|discriminate].
Qed.

(** ... and there is such a file, when the nodes of the page tree are in order and the streams can be decoded, unless the marked body of
    a stream cannot be encoded. *)
Theorem C101_succeeds : forall supported encode decode real text image v items trailer kids nodes n items1,
  codec supported encode decode -> section_saveable (items, trailer) -> N.of_nat (S (List.length items)) < 2 ^ 63 ->
  (forall e off m data, In (e, OStream m data) items -> xdata e = KUsed off true -> supported m /\ exists b, decode m data = Ok b) ->
  root_kids (object_of items) trailer kids ->
  font_added items items1 n -> StronglySorted N.lt (map (fun p => xnum (fst p)) items1) ->
  page_nodes (object_of items1) kids nodes -> (forall p, In p nodes -> ready real (object_of items1) p) ->
  exists enough, forall fuel, (enough <= fuel)%nat ->
    (exists file, write_marked real text image decode encode fuel v items trailer = Ok file) \/
    exists e off m data body marks, In (e, OStream m data) items /\ xdata e = KUsed off true /\ decode m data = Ok body /\
      Forall2 (drawn real text image (object_of items1)) (filter (ends (object_of items1) (xnum e, xgen e)) nodes) marks /\
      forall x, encode m (saves (List.length (filter (begins (object_of items1) (xnum e, xgen e)) nodes)) ++ body ++ List.concat (map (fun t => restore_line ++ t) marks)) <> Ok x.
Proof.
  intros supported encode decode real text image v items trailer kids nodes n items1 Hcd Hs Hlen Hstr Hroot (Hf & Hnd & Hin) Hso Pn Hr.
  assert (Hin' := items1_in items n Hf). assert (Hso' := items1_sorted items trailer n Hs).
  assert (E1 : padd (new_entry n, helvetica) items = items1).
  { apply sorted_members; [exact Hso'|exact Hso|]. intros p. rewrite Hin', Hin. reflexivity. }
  set (d1 := document_of decode items1).
  assert (Ht : forall a b, tidy (d_objects d1 a b)) by (unfold d1; rewrite <- E1; eapply items1_tidy; eassumption).
  assert (Hroot1 : root_kids (d_objects d1) trailer kids).
  { eapply root_kids_more; [|exact Hroot]. intros a b Hn. destruct (object_listed items a b Hn) as (e & off & Hi & Hd & <- & <-). unfold d1, document_of. cbn [d_objects].
    apply (object_found items1 e _ off Hnd); [apply Hin; right; exact Hi|exact Hd]. }
  destruct (C100_succeeds real (n, 0) text image d1 trailer kids nodes Ht Hroot1 Pn Hr) as (enough & He). exists enough. intros fuel Hfu.
  destruct (He fuel Hfu) as (d2 & Eapply). destruct (allocation items n Hf Hlen) as (c & Ea).
  unfold write_marked. rewrite (root_kids_has (document_of decode items) trailer kids Hroot), Ea. cbn [rbind]. rewrite E1. fold d1. rewrite Eapply. cbn [rbind].
  destruct (mark_items_or decode encode d1 d2 items1) as [(items2 & Em)|(p & Hp & Hno)].
  - left. rewrite Em. cbn [rbind]. rewrite <- StandardSave.written_once.
    assert (Hs2 : section_saveable (items2, trailer)).
    { unfold d1 in Em, Eapply. rewrite <- E1 in Em, Eapply. eapply (marked_saveable supported encode decode); try eassumption. intros e off m data Hi Hd. apply (Hstr e off m data Hi Hd). }
    destruct Hs2 as (A & B & _). apply Verif.Props.FileWrite.C21_write_succeeds; [exact A|]. cbn [fst] in B. rewrite Forall_forall in B |- *. intros q Hq. destruct (B q Hq) as (B1 & B2). split; [exact B1|].
    unfold FileWrite.used_in_use. destruct (xdata (fst q)) as [|off [|]|]; try contradiction. intros _. apply (B2 off eq_refl).
  - right. destruct p as [e o]. unfold mark_item in Hno. cbn [fst snd] in Hno. destruct (entry_in_use e) eqn:Hu; [|exfalso; eapply Hno; reflexivity].
    destruct o as [| | | | | | | | | |m data]; try (exfalso; eapply Hno; reflexivity). destruct (bytes_eqb _ _); [exfalso; eapply Hno; reflexivity|].
    apply Hin in Hp. destruct Hp as [Hp|Hp]; [apply (f_equal snd) in Hp; discriminate Hp|].
    assert (Hd : exists off, xdata e = KUsed off true).
    { destruct Hs as (_ & F & _). cbn [fst] in F. rewrite Forall_forall in F. destruct (F _ Hp) as ((_ & _ & G) & _). cbn [fst] in G. unfold entry_in_use in Hu. destruct (xdata e) as [|off u|]; try discriminate Hu; [|destruct G]. subst u. eauto. }
    destruct Hd as (off & Hd). destruct (Hstr e off m data Hp Hd) as (_ & body & Eb).
    destruct (C100_bodies _ _ _ _ _ _ _ _ _ Ht Hroot1 Eapply) as (nodes' & Pn' & Hb). assert (nodes' = nodes) by (exact (nodes_unique _ _ _ Pn' _ Pn)). subst nodes'.
    destruct (Hb (xnum e, xgen e)) as (marks & Fm & E2). exists e, off, m, data, body, marks. split; [exact Hp|]. split; [exact Hd|]. split; [exact Eb|]. split; [exact Fm|].
    intros x Ex. rewrite Eb in Hno. cbn [rbind] in Hno. cbn [fst snd] in E2.
    assert (E3 : d_bodies d1 (xnum e) (xgen e) = body).
    { unfold d1, document_of. cbn [d_bodies]. rewrite (object_found items1 e (OStream m data) off Hnd); [rewrite Eb; reflexivity|apply Hin; right; exact Hp|exact Hd]. }
    rewrite E3 in E2. rewrite E2 in Hno. change (d_objects d1) with (object_of items1) in Hno. rewrite Ex in Hno. cbn [rbind] in Hno. eapply Hno. reflexivity.
Qed.

(** A document without a page tree is saved without a mark: the file has its objects as they are and no other. *)
Theorem C101_pageless : forall encode decode real text image fuel v items trailer,
  section_saveable (items, trailer) -> short_links (items, trailer) -> (forall x, ~ In (str "Prev", x) trailer) -> pageless (object_of items) trailer ->
  exists file, write_marked real text image decode encode fuel v items trailer = Ok file /\
    ((Z.of_nat (List.length file) <= 10 ^ 10)%Z ->
     exists r, conforming file v [r] /\ same_trailer trailer (r_trailer r) /\
       (forall e o off, In (e, o) items -> xdata e = KUsed off true -> exists o', same_object o o' /\ stands_for file [r] (xnum e) (xgen e) o') /\
       forall n g, (forall e o off, In (e, o) items -> xdata e = KUsed off true -> xnum e = n -> xgen e <> g) -> stands_for file [r] n g ONull).
Proof.
  intros encode decode real text image fuel v items trailer Hs Hk Hp Hn. unfold write_marked.
  destruct (pageless_has real text image fuel (document_of decode items) trailer Hn) as (-> & ->). cbn [rbind].
  assert (W : exists file, write_tables v [(items, trailer)] = Ok file).
  { rewrite <- StandardSave.written_once. destruct Hs as (A & B & _). apply Verif.Props.FileWrite.C21_write_succeeds; [exact A|]. cbn [fst] in B. rewrite Forall_forall in B |- *. intros q Hq. destruct (B q Hq) as (B1 & B2). split; [exact B1|].
    unfold FileWrite.used_in_use. destruct (xdata (fst q)) as [|off [|]|]; try contradiction. intros _. apply (B2 off eq_refl). }
  destruct W as (file & Hw). exists file. split; [exact Hw|]. intros Hfl.
  destruct (C93_saved_partial v [(items, trailer)] file) as (revs & Hc & Htr & Hnew & Hun).
  { constructor; [exact Hs|constructor]. }
  { constructor; [exact Hk|constructor]. }
  { discriminate. }
  { intros s rest x E. assert (s = (items, trailer)) by congruence. subst s. apply Hp. }
  { exact Hw. }
  { exact Hfl. }
  cbn [map snd] in Htr. inversion Htr as [|? t ? ts Hsame Hnil E1 E2]; subst. inversion Hnil; subst.
  assert (Er : exists r, revs = [r]).
  { assert (L : List.length (map r_trailer (rev revs)) = 1%nat) by (rewrite <- E2; reflexivity). rewrite map_length, rev_length in L. destruct revs as [|r [|r' revs]]; try discriminate L. exists r. reflexivity. }
  destruct Er as (r & ->). cbn [rev app map] in E2. assert (Et : t = r_trailer r) by congruence. subst t. clear E2 Htr Hnil.
  assert (Hnewest : forall q, In q items -> newest [(items, trailer)] (fst q) (snd q)).
  { intros [e o] Hq. exists [], (items, trailer), []. split; [reflexivity|]. split; [exact Hq|]. intros x p []. }
  exists r. split; [exact Hc|]. split; [exact Hsame|]. split.
  - intros e o off Hin Hd. specialize (Hnew _ _ (Hnewest _ Hin)). cbn [fst snd] in Hnew. rewrite Hd in Hnew. apply Hnew.
  - intros n g Hno. destruct (in_dec N.eq_dec n (map (fun p : xentry * obj => xnum (fst p)) items)) as [Hl|Hl].
    + apply in_map_iff in Hl. destruct Hl as ([e o] & En & Hin). cbn [fst] in En. specialize (Hnew _ _ (Hnewest _ Hin)). cbn [fst snd] in Hnew.
      destruct Hs as (_ & Fs & _). cbn [fst] in Fs. rewrite Forall_forall in Fs. destruct (Fs _ Hin) as ((_ & _ & Sv) & _). cbn [fst] in Sv.
      rewrite <- En. destruct (xdata e) as [next|off u|k j] eqn:Ed; [apply Hnew| |destruct Sv]. subst u. apply Hnew. intros ->. eapply Hno; [exact Hin|exact Ed|exact En|reflexivity].
    + apply Hun. intros s p Hs' Hp' En. destruct Hs' as [<-|[]]. cbn [fst] in Hp'. apply Hl. rewrite <- En. apply (in_map (fun p : xentry * obj => xnum (fst p)) _ _ Hp').
Qed.

(** When Root or its Pages is not a dictionary, there is no file. *)
Theorem C101_malformed : forall encode decode real text image fuel v items trailer, malformed (object_of items) trailer ->
  write_marked real text image decode encode fuel v items trailer = Throw EConversion.
Proof.
  intros encode decode real text image fuel v items trailer H. unfold write_marked.
  destruct (malformed_has real text image fuel (document_of decode items) trailer H) as (-> & ->). reflexivity.
Qed.

(** One page with one compressed content stream, and a reference to an object that is not there. *)
Definition C101_document : list (xentry * obj) :=
  [C36_free; (C36_used 1 0, ODict [(str "Pages", ORef 2 0)]); (C36_used 2 0, ODict [(str "Kids", OArr [ORef 3 0])]);
   (C36_used 3 0, ODict [(str "Annots", ORef 5 0); (str "Contents", ORef 4 0)]); (C36_used 4 0, OStream [c21_flate] (9 :: str "oD 1mI/"))].
Definition C101_save (real : bool -> N -> N -> dbl) : res bytes :=
  write_marked real (str "T") (str "I") (decode_plain c21_inflate) (encode_in_memory c21_deflate c21_inflate) 10 PDF14 C101_document C36_trailer.
Ltac wcase := apply w_dict;
  [repeat (constructor; cbn; try (apply kl_less; cbn; lia))
  |repeat constructor; cbn; try discriminate; unfold is_byte; lia
  |cbn; repeat (constructor; cbn; unfold is_byte; try lia)].
Example C101_case : forall real,
  codec flate_only (encode_in_memory c21_deflate c21_inflate) (decode_plain c21_inflate) /\
  section_saveable (C101_document, C36_trailer) /\ short_links (C101_document, C36_trailer) /\ (forall x, ~ In (str "Prev", x) C36_trailer) /\
  N.of_nat (S (List.length C101_document)) < 2 ^ 63 /\ (forall e off m data, In (e, OStream m data) C101_document -> xdata e = KUsed off true -> flate_only m) /\
  root_kids (object_of C101_document) C36_trailer [ORef 3 0] /\ first_unlisted C101_document 5 /\
  exists file, C101_save real = Ok file /\ (Z.of_nat (List.length file) <= 10 ^ 10)%Z.
Proof.
  intros real. split; [exact c95_codec|]. split; [|split; [|split; [|split; [|split; [|split; [|split]]]]]].
  - split; [cbn; repeat constructor; lia|]. split; [|split; [|split; [intros v [E|[]]; discriminate|cbn; lia]]].
    + cbn [fst]. unfold C101_document. repeat apply Forall_cons; [..|apply Forall_nil]; (split; [unfold entry_saveable; cbn [fst xnum xgen xdata C36_free C36_used]; repeat split; lia|]); cbn [fst snd].
      * discriminate.
      * intros _ _. apply st_direct. wcase.
      * intros _ _. apply st_direct. wcase.
      * intros _ _. apply st_direct. wcase.
      * intros _ _. apply st_stream; [wcase| |reflexivity]. intros v [X|[]]. discriminate.
    + cbn [snd]. wcase.
  - intros e o next Hin Hd. cbn [fst C101_document In] in Hin. repeat (destruct Hin as [H|Hin]; [apply (f_equal fst) in H; cbn [fst C36_free] in H; subst e; cbn in Hd; try discriminate Hd|]); [|destruct Hin].
    assert (next = 0) by congruence. subst next. reflexivity.
  - intros x [E|[]]. discriminate.
  - reflexivity.
  - intros e off m data Hin _. unfold C101_document in Hin. cbn [In] in Hin. repeat (destruct Hin as [H|Hin]; [apply (f_equal snd) in H; cbn [snd C36_free] in H; try discriminate H|]); [|destruct Hin].
    assert (m = [c21_flate]) by congruence. subst m. exists [str "FlateDecode"]. split; [apply Verif.Spec.StreamBody.fl_name; reflexivity|]. split; [intros [X|[]]; discriminate|left; reflexivity].
  - exists (ORef 1 0), [(str "Pages", ORef 2 0)], (ORef 2 0), [(str "Kids", OArr [ORef 3 0])], (OArr [ORef 3 0]).
    split; [vm_compute; reflexivity|]. split; [right; exists 1, 0; split; reflexivity|]. split; [vm_compute; reflexivity|]. split; [right; exists 2, 0; split; reflexivity|].
    split; [vm_compute; reflexivity|left; reflexivity].
  - split.
    + intros (p & Hin & E). unfold C101_document in Hin. cbn [In] in Hin. repeat (destruct Hin as [H|Hin]; [subst p; cbn in E; discriminate E|]). destruct Hin.
    + intros k Hk. assert (C : k = 0 \/ k = 1 \/ k = 2 \/ k = 3 \/ k = 4) by lia. unfold listed, C101_document.
      destruct C as [->|[->|[->|[->| ->]]]]; (eexists; split; [|shelve]); cbn [In]; [left|right; left|do 2 right; left|do 3 right; left|do 4 right; left]; reflexivity.
      Unshelve. all: reflexivity.
  - destruct (C101_save real) as [file| | |] eqn:E; [|vm_compute in E; discriminate E..]. exists file. split; [reflexivity|].
    vm_compute in E. apply okay in E. subst file. vm_compute. discriminate.
Qed.

Definition C101_with_font : list (xentry * obj) := C101_document ++ [({| xnum := 5; xgen := 0; xdata := KUsed (-1) true |}, font_dictionary)].
Example C101_succeeds_case : forall real,
  (forall e off m data, In (e, OStream m data) C101_document -> xdata e = KUsed off true -> exists b, decode_plain c21_inflate m data = Ok b) /\
  font_added C101_document C101_with_font 5 /\ StronglySorted N.lt (map (fun p => xnum (fst p)) C101_with_font) /\
  page_nodes (object_of C101_with_font) [ORef 3 0] [(3, 0)] /\ forall p, In p [(3, 0)] -> ready real (object_of C101_with_font) p.
Proof.
  intros real. assert (S : StronglySorted N.lt (map (fun p => xnum (fst p)) C101_with_font)) by (cbn; repeat constructor; lia).
  split; [|split; [|split; [exact S|split]]].
  - intros e off m data Hin _. unfold C101_document in Hin. cbn [In] in Hin. repeat (destruct Hin as [H|Hin]; [apply (f_equal snd) in H; cbn [snd C36_free] in H; try discriminate H|]); [|destruct Hin].
    assert (m = [c21_flate] /\ data = 9 :: str "oD 1mI/") as [-> ->] by (split; congruence). eexists. vm_compute. reflexivity.
  - destruct (C101_case real) as (_ & _ & _ & _ & _ & _ & _ & Hf & _). split; [exact Hf|]. split.
    + cbn. repeat (constructor; [cbn; lia|]). constructor.
    + intros p. unfold C101_with_font. rewrite in_app_iff. cbn [In]. intuition.
  - change [(3, 0)] with ([] ++ (3, 0) :: @nil (N * N)). eapply pn_cons; [vm_compute; reflexivity|vm_compute; reflexivity|constructor|constructor].
  - intros p [<-|[]]. eexists. split; [vm_compute; reflexivity|]. split; [|split]; intros v Hv; vm_compute in Hv; discriminate Hv.
Qed.

(** a catalog whose Pages has no Kids *)
Definition C101_empty : list (xentry * obj) := [C36_free; (C36_used 1 0, ODict [(str "Pages", ORef 2 0)]); (C36_used 2 0, ODict [(str "Count", OInt 0)])].
Example C101_pageless_case : section_saveable (C101_empty, C36_trailer) /\ short_links (C101_empty, C36_trailer) /\ pageless (object_of C101_empty) C36_trailer.
Proof.
  split; [|split].
  - split; [cbn; repeat constructor; lia|]. split; [|split; [|split; [intros v [E|[]]; discriminate|cbn; lia]]].
    + cbn [fst]. unfold C101_empty. repeat apply Forall_cons; [..|apply Forall_nil]; (split; [unfold entry_saveable; cbn [fst xnum xgen xdata C36_free C36_used]; repeat split; lia|]); cbn [fst snd].
      * discriminate.
      * intros _ _. apply st_direct. wcase.
      * intros _ _. apply st_direct. wcase.
    + cbn [snd]. wcase.
  - intros e o next Hin Hd. cbn [fst C101_empty In] in Hin. repeat (destruct Hin as [H|Hin]; [apply (f_equal fst) in H; cbn [fst C36_free] in H; subst e; cbn in Hd; try discriminate Hd|]); [|destruct Hin].
    assert (next = 0) by congruence. subst next. reflexivity.
  - right. exists (ORef 1 0), [(str "Pages", ORef 2 0)]. split; [vm_compute; reflexivity|]. split; [right; exists 1, 0; split; [reflexivity|vm_compute; reflexivity]|].
    right. exists (ORef 2 0), [(str "Count", OInt 0)]. split; [vm_compute; reflexivity|]. split; [right; exists 2, 0; split; [reflexivity|vm_compute; reflexivity]|vm_compute; reflexivity].
Qed.
(** Pages that refers to an object that is not there *)
Example C101_malformed_case : malformed (object_of [C36_free; (C36_used 1 0, ODict [(str "Pages", ORef 2 0)])]) C36_trailer.
Proof.
  exists (ORef 1 0). split; [vm_compute; reflexivity|]. right. exists [(str "Pages", ORef 2 0)], (ORef 2 0). split; [right; exists 1, 0; split; [reflexivity|vm_compute; reflexivity]|].
  split; [vm_compute; reflexivity|]. intros m [E|(n & g & E & X)]; [discriminate E|]. assert (n = 2 /\ g = 0) as [-> ->] by (split; congruence). vm_compute in X. discriminate X.
Qed.

Print Assumptions C101_saved_partial.
Print Assumptions C101_dangling_refuted.
Print Assumptions C101_succeeds.
Print Assumptions C101_pageless.
Print Assumptions C101_malformed.

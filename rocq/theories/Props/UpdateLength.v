(** C98: changed streams whose dictionaries refer to other objects, saved incrementally. *)
From Coq Require Import List NArith ZArith Bool Lia String Sorted.
From Coq Require Import List.
From Verif.Model Require Import Rebuild Conforming Base Char Numbers SMap Object Token Parser Xref StartXref Header FileWrite Chain Merge Update StreamBody SharedLength UpdateLength.
From Verif.Spec Require Import Strings Grammar FileWrite Update Conforming Written Crash SharedLength UpdateLength.
From Verif.Proof Require Import Tac Strings SMap Writer StreamObj Xref FileWrite Update Conforming Written SharedLength UpdateLength.
From Verif.Props Require Save SharedLength.
Import ListNotations.
Local Open Scope N_scope.

Lemma changes_conform : forall file v revs s r file' e0 o0, conforming file v revs -> revisions file (Z.to_N (f_offset s)) revs ->
  changes_ready s r -> (forall x, ~ In (str "Prev", x) (f_trailer s)) -> changed_live (s :: r) e0 o0 ->
  write_changes file (s :: r) = Ok file' -> (Z.of_nat (List.length file') <= 10 ^ 10)%Z ->
  exists rn, conforming file' v (rn :: revs) /\
    (forall k, In k document_keys -> sm_find k (r_trailer rn) = sm_find k (f_trailer s)) /\
    (forall e o, changed_live (s :: r) e o -> exists o', kept_object file' (rn :: revs) o o' /\ stands_for file' (rn :: revs) (xnum e) (xgen e) o') /\
    forall n, n <> 0 -> unchanged (s :: r) n -> others_kept file file' revs (rn :: revs) n.
Proof.
  intros file v revs s r file' e0 o0 Hc Hr Hu Hp Hch Hw Hlen.
  destruct (changes_written file s r file' Hu Hw Hlen (some_change _ _ _ Hch)) as (off' & rn & more & E & L1 & L2 & L3 & L4 & L6).
  destruct Hu as (U1 & U2 & U3 & U4 & U5 & U6).
  assert (Hpf : sm_find (str "Prev") (f_trailer s) = None) by (apply not_in_find; [exact U3|apply str_bytes|exact Hp]).
  assert (Hrev := L6 (f_offset s) revs ltac:(lia) Hr (or_introl (conj Hpf eq_refl))).
  exists rn. split; [|split; [exact L4|split]].
  - destruct Hc as (offc & _ & (le & rest & Hle & Ef) & _). apply (conforming_from file' v off' _ Hrev L1 L2); [|exact Hlen].
    exists le, (rest ++ [10] ++ more). split; [exact Hle|]. rewrite E, Ef, <- !app_assoc. reflexivity.
  - intros e o Hl. assert (Hin := changed_listed _ _ _ U2 Hl). destruct Hl as (s1 & z & _ & Hd & _). assert (H := proj2 L3 e o Hin). rewrite Hd in H.
    destruct H as (pos & o' & H1 & H2 & H3). exists o'. split; [apply (resized_kept file' (table_of (s :: r)) [] rn revs); [exact L3|exact H3]|].
    apply (sf_object _ _ _ _ pos revs); [apply listed, H1|apply (object_in_file file' (table_of (s :: r)) [] rn revs); [exact L3|exact H2]].
  - intros n Hn Hun. assert (R4 : forall row, ~ In (n, row) (r_rows rn)).
    { intros row Hin. apply (in_map fst) in Hin. rewrite (proj1 L3) in Hin. cbn [fst] in Hin. apply in_map_iff in Hin. destruct Hin as (p & Ep & Hpn).
      exact (add_all_numbers _ _ Hn Hun p Hpn Ep). }
    assert (G : forall row older, current revs n row older -> current (rn :: revs) n row older).
    { intros row older (newer & x & -> & H1 & H2). exists (rn :: newer), x. split; [reflexivity|]. split; [exact H1|]. intros y q [<-|Hy]; [apply R4|apply H2, Hy]. }
    split; [|split].
    + intros g pos older o Hcur Hat. apply (sf_object _ _ _ _ pos older); [apply G, Hcur|]. apply stored_body. rewrite E. apply object_grow; [left; exact white10|exact Hat].
    + intros g g' older Hcur. apply (sf_free _ _ _ _ g' older), G, Hcur.
    + intros g Hnl. apply sf_unknown. intros x q [<-|Hx]; [apply R4|apply Hnl, Hx].
Qed.

Lemma bodies_conform : forall encode body file v revs s r file' e0 o0, conforming file v revs -> revisions file (Z.to_N (f_offset s)) revs ->
  changes_ready s r -> (forall x, ~ In (str "Prev", x) (f_trailer s)) -> changed_live (s :: r) e0 o0 ->
  write_update encode body file (s :: r) = Ok file' -> (Z.of_nat (List.length file') <= 10 ^ 10)%Z ->
  exists rn, conforming file' v (rn :: revs) /\
    (forall k, In k document_keys -> sm_find k (r_trailer rn) = sm_find k (f_trailer s)) /\
    (forall e o, changed_live (s :: r) e o -> exists o1 o', encoded_as encode body (table_of (s :: r)) e o o1 /\
       kept_object file' (rn :: revs) o1 o' /\ stands_for file' (rn :: revs) (xnum e) (xgen e) o') /\
    forall n, n <> 0 -> unchanged (s :: r) n -> others_kept file file' revs (rn :: revs) n.
Proof.
  intros encode body file v revs s r file' e0 o0 Hc Hr Hu Hp Hch Hw Hlen. unfold write_update in Hw. apply rbind_ok in Hw. destruct Hw as ([t any] & Ht & Hw).
  apply changes_spec in Ht. destruct Ht as [Et _]. fold (table_of (s :: r)) in Et. subst t. apply rbind_ok in Hw. destruct Hw as (c' & Hs & Hw).
  apply sections_encoded in Hs. inversion Hs as [|? s' ? r' Hss Hrr]; subst. assert (Hu' : changes_ready s' r').
  { apply (ready_encoded encode body (table_of (s :: r)) _ _ _ _ Hs Hu). intros e m d Hd. assert (H := data_fits _ _ _ _ _ _ (once_encoded encode body (table_of (s :: r)) _ _ Hs (proj1 (proj2 Hu))) Hw Hd).
    change (10 ^ 10)%Z with 10000000000%Z in Hlen. change (2 ^ 63) with 9223372036854775808. lia. }
  destruct (live_encoded encode body (table_of (s :: r)) _ _ _ _ Hs Hch) as (o1 & _ & Hch'). destruct Hss as (E1 & E2 & _).
  rewrite <- E1 in Hr. rewrite <- E2 in Hp.
  destruct (changes_conform file v revs s' r' file' _ _ Hc Hr Hu' Hp Hch' Hw Hlen) as (rn & R1 & R2 & R3 & R4). exists rn. split; [exact R1|]. split; [rewrite <- E2; exact R2|]. split.
  - intros e o Ho. destruct (live_encoded encode body (table_of (s :: r)) _ _ _ _ Hs Ho) as (o2 & A & B). destruct (R3 e o2 B) as (o' & C & D). exists o2, o'. auto.
  - intros n Hn Hun. apply R4; [exact Hn|]. apply (unchanged_encoded encode body (table_of (s :: r)) _ _ _ Hs Hun).
Qed.

(** Every first incremental save of a file that follows the standard: the result follows the standard and has one section more.  Changed
    objects stand for what the program left, streams with all their data; when their body was set, it is encoded with their own filters.
    All other objects stand for what they stood for.  Needed are lengths and filters that are direct, or lengths that were changed in the
    same save.  Missing: all other references (see below), later saves (C93), reals as lengths, the Size of the new trailer. *)
Theorem C98_updated_partial : forall encode body file v revs s r file' e0 o0, conforming file v revs -> revisions file (Z.to_N (f_offset s)) revs ->
  changes_ready s r -> direct_filters body (s :: r) -> (forall x, ~ In (str "Prev", x) (f_trailer s)) -> changed_live (s :: r) e0 o0 ->
  write_update encode body file (s :: r) = Ok file' -> (Z.of_nat (List.length file') <= 10 ^ 10)%Z ->
  exists rn, conforming file' v (rn :: revs) /\
    (forall k, In k document_keys -> sm_find k (r_trailer rn) = sm_find k (f_trailer s)) /\
    (forall e o, changed_live (s :: r) e o -> exists o1 o', as_left encode body e o o1 /\
       kept_object file' (rn :: revs) o1 o' /\ stands_for file' (rn :: revs) (xnum e) (xgen e) o') /\
    forall n, n <> 0 -> unchanged (s :: r) n -> others_kept file file' revs (rn :: revs) n.
Proof.
  intros encode body file v revs s r file' e0 o0 Hc Hr Hu Hd Hp Hch Hw Hlen.
  destruct (bodies_conform encode body file v revs s r file' e0 o0 Hc Hr Hu Hp Hch Hw Hlen) as (rn & R1 & R2 & R3 & R4). exists rn. split; [exact R1|]. split; [exact R2|]. split; [|exact R4].
  intros e o Ho. destruct (R3 e o Ho) as (o1 & o' & A & B). exists o1, o'. split; [|exact B]. unfold encoded_as in A. unfold as_left. destruct o; try exact A.
  destruct (body (xnum e) (xgen e)) as [b|] eqn:Eb; [|exact A].
  assert (G : forall k l', (forall n g, ~ In (k, ORef n g) l) -> all_bytes k -> followed l' k l = l).
  { intros k l' Hno Hk. unfold followed. destruct (sm_find k l) as [[| | | | | | |n g| | |]|] eqn:Ef; try reflexivity. exfalso. apply (Hno n g).
    assert (W : writable (ODict l)). { destruct Hu as (U1 & _). destruct Ho as (s1 & off & Hs1 & Hx & Hi). specialize (U1 s1 _ Hs1 Hi eq_refl). cbn [f_entry f_object] in U1. rewrite Hx in U1. destruct U1 as [_ U1].
      inversion U1 as [? Ws|? ? Ws _ _]; [inversion Ws|exact Ws]. }
    apply in_find; [exact W|exact Hk|exact Ef]. }
  assert (Hf := Hd e l data Ho ltac:(congruence)). rewrite (G (str "Filter")), (G (str "DecodeParms")) in A; [exact A| |apply str_bytes| |apply str_bytes]; intros n g; apply Hf.
Qed.

(** Such changes can always be saved, when their bodies can be encoded. *)
Theorem C98_update_succeeds_partial : forall file s r, changes_ready s r -> exists file', write_changes file (s :: r) = Ok file'.
Proof. exact update_writes. Qed.

(** The part that does not hold, for lengths: a changed stream whose length refers to an object that was not changed too makes every
    incremental save fail, whether the length is still right or not, and although the object is there. *)
Theorem C98_unchanged_length_refuted : forall file c e m data n g,
  changed_once c -> changed_live c e (OStream m data) -> sm_find (str "Length") m = Some (ORef n g) -> (forall o, ~ has (changed_objects c) n g o) ->
  forall file', write_changes file c <> Ok file'.
Proof.
  intros file c e m data n g Hone Hch Hf Hno file' H. unfold write_changes in H. apply rbind_ok in H. destruct H as ([t m1] & Hc & H). apply rbind_ok in H. destruct H as ([out off] & Ha & _).
  unfold create_incremental in Hc. apply rbind_ok in Hc. destruct Hc as ([t0 any] & Hcol & Hc). apply changes_spec in Hcol. destruct Hcol as [Et _]. fold (table_of c) in Et.
  assert (t = t0). { destruct c as [|s r]; [discriminate Hc|]. apply rbind_ok in Hc. destruct Hc as (m2 & _ & Hc). apply Ok_inj in Hc. congruence. } subst t t0. clear Hc.
  assert (Hin := changed_listed _ _ _ Hone Hch). fold (table_of c) in Hin. destruct Hch as (s1 & z & _ & Hd & _).
  unfold append_changes in Ha. apply rbind_ok in Ha. destruct Ha as (l1 & Hl & _). destruct (set_lengths_each _ _ _ Hl _ _ z true Hin Hd) as (o' & Ho). cbn [set_length] in Ho. rewrite Hf in Ho.
  unfold length_value in Ho. rewrite (find_object_none (table_of c) n g) in Ho; [discriminate Ho|]. intros o Hh. exact (Hno o (listed_has _ _ _ _ Hh)).
Qed.

(** Without references the writer is the one of C36 and C93. *)
Theorem C98_direct_lengths : forall file c,
  (forall e m data n g, In (e, OStream m data) (table_of c) -> sm_find (str "Length") m <> Some (ORef n g)) ->
  write_changes file c = write_incremental file c.
Proof.
  intros file c H. unfold write_changes, write_incremental, create_incremental. destruct (collect c [list_head] false) as [[t any]|e| |] eqn:E; try reflexivity. cbn [rbind].
  apply changes_spec in E. destruct E as [-> _]. fold (table_of c). destruct c as [|s r]; [reflexivity|]. destruct (if any then _ else _) as [m|e| |]; try reflexivity. cbn [rbind]. cbv zeta.
  unfold append_changes, append_section. rewrite (set_lengths_direct (table_of (s :: r)) (table_of (s :: r)) H). reflexivity.
Qed.

Lemma followed_find : forall l k m k2, writable (ODict m) -> all_bytes k -> all_bytes k2 ->
  sm_find k2 (followed l k m) = match sm_find k m with
                                | Some (ORef n g) => if list_eq_dec N.eq_dec k2 k then Some (find_object l n g) else sm_find k2 m
                                | _ => sm_find k2 m
                                end.
Proof. intros l k m k2 Hw Hk Hk2. unfold followed. destruct (sm_find k m) as [[| | | | | | |n g| | |]|]; try reflexivity. apply find_set; assumption. Qed.
Lemma followed_other : forall l k m k2, sm_sorted m -> sm_keys_ok m -> all_bytes k -> all_bytes k2 -> k2 <> k -> sm_find k2 (followed l k m) = sm_find k2 m.
Proof.
  intros l k m k2 Hs Hm Hk Hk2 Hne. unfold followed. destruct (sm_find k m) as [[| | | | | | |n g| | |]|]; try reflexivity.
  rewrite sm_find_insert; [| | |exact Hk|exact Hk2]; [|apply sm_remove_sorted, Hs|apply sm_remove_forall, Hm].
  rewrite !sm_find_remove by assumption. destruct (list_eq_dec N.eq_dec k2 k); [contradiction|]. destruct (sm_find k2 m); reflexivity.
Qed.
Lemma followed_ok : forall l k m, sm_sorted m -> sm_keys_ok m -> all_bytes k -> sm_sorted (followed l k m) /\ sm_keys_ok (followed l k m).
Proof.
  intros l k m Hs Hm Hk. unfold followed. destruct (sm_find k m) as [[| | | | | | |n g| | |]|]; try (split; assumption).
  split; [apply sm_insert_sorted, sm_remove_sorted, Hs|apply sm_insert_keys_ok; [apply sm_remove_forall, Hm|exact Hk]].
Qed.
Lemma null_filter : forall zip jpeg m b, sm_find (str "Filter") m = Some ONull -> encode_set zip jpeg m b = Ok b.
Proof.
  intros zip jpeg m b Hf. unfold encode_set, get_encoded, set_body, loaded. cbn [negb andb orb dirty decoded header raw decrypted exempt]. unfold encode_changed, get_body. cbn [decoded header rbind exempt].
  unfold find_obj. rewrite Hf. unfold sm_contains. rewrite Hf. reflexivity.
Qed.

(** The part that does not hold, for filters: when the body of a stream is set whose filter is an object that was not changed, an
    incremental save writes the body as it is, without the filter, while the dictionary still names the filter and the filter is still
    there.  Whoever reads the file decodes data that was never encoded. *)
Theorem C98_unchanged_filter_refuted : forall zip jpeg body file v revs s r file' e m d n g b,
  conforming file v revs -> revisions file (Z.to_N (f_offset s)) revs -> changes_ready s r -> (forall x, ~ In (str "Prev", x) (f_trailer s)) ->
  changed_live (s :: r) e (OStream m d) -> In (str "Filter", ORef n g) m -> body (xnum e) (xgen e) = Some b ->
  n <> 0 -> unchanged (s :: r) n ->
  write_update (encode_set zip jpeg) body file (s :: r) = Ok file' -> (Z.of_nat (List.length file') <= 10 ^ 10)%Z ->
  exists rn m', conforming file' v (rn :: revs) /\
    stands_for file' (rn :: revs) (xnum e) (xgen e) (OStream m' b) /\ In (str "Filter", ORef n g) m' /\
    forall pos older o, current revs n (InUse pos g) older -> object_at complete_text file pos n g o -> stands_for file' (rn :: revs) n g o.
Proof.
  intros zip jpeg body file v revs s r file' e m d n g b Hc Hr Hu Hp Hch Hin Hbody Hn Hun Hw Hlen.
  destruct (bodies_conform (encode_set zip jpeg) body file v revs s r file' _ _ Hc Hr Hu Hp Hch Hw Hlen) as (rn & R1 & _ & R3 & R4).
  destruct (R3 _ _ Hch) as (o1 & o' & A & B & C). unfold encoded_as in A. rewrite Hbody in A. destruct A as (data & Ed & ->).
  assert (W : writable (ODict m)). { destruct Hu as (U1 & _). destruct Hch as (s1 & off & Hs1 & Hx & Hi). specialize (U1 s1 _ Hs1 Hi eq_refl). cbn [f_entry f_object] in U1. rewrite Hx in U1. destruct U1 as [_ U1].
    inversion U1 as [? Ws|? ? Ws _ _]; [inversion Ws|exact Ws]. }
  destruct (writable_parts _ W) as (S1 & K1 & _).
  assert (Hf : sm_find (str "Filter") m = Some (ORef n g)) by (apply in_find; [exact W|apply str_bytes|exact Hin]).
  assert (En : find_object (table_of (s :: r)) n g = ONull).
  { apply find_object_none. intros o (off & Ho). exact (add_all_numbers _ _ Hn Hun _ Ho eq_refl). }
  assert (E : data = b). { destruct (followed_ok (table_of (s :: r)) (str "Filter") m S1 K1 (str_bytes _)) as [S2 K2].
    rewrite null_filter in Ed; [apply Ok_inj in Ed; congruence|].
    rewrite followed_other; [|exact S2|exact K2|apply str_bytes|apply str_bytes|discriminate].
    rewrite followed_find; [|exact W|apply str_bytes|apply str_bytes]. rewrite Hf. destruct (list_eq_dec N.eq_dec (str "Filter") (str "Filter")); [rewrite En; reflexivity|congruence]. }
  subst data. inversion B as [? Wb|? m' ? Hk _ _]; subst; [inversion Wb|]. exists rn, m'. split; [exact R1|]. split; [exact C|]. split; [apply Hk; [discriminate|exact Hin]|].
  intros pos older o Hcur Hat. destruct (R4 n Hn Hun) as (G & _). exact (G g pos older o Hcur Hat).
Qed.

(** ** Concrete cases: 5 is the length of the stream 4, and 6 is the filter of the stream 7 *)
Definition used (n : N) (o : obj) : xentry * obj := ({| xnum := n; xgen := 0; xdata := KUsed 0 true |}, o).
Definition case_document : list (xentry * obj) :=
  [({| xnum := 0; xgen := 65535; xdata := KFree 0 |}, ONull); used 1 (ODict [(str "Pages", ORef 4 0)]);
   used 4 (OStream [(str "Length", ORef 5 0)] (str "q Q")); used 5 (OInt 3); used 6 (OName (str "FlateDecode"));
   used 7 (OStream [(str "Filter", ORef 6 0); (str "Length", OInt 3)] (str "abc"))].
Definition case_trailer : list (bytes * obj) := [(str "Root", ORef 1 0)].
Definition case_file : bytes := Eval vm_compute in match write_document PDF14 case_document case_trailer with Ok b => b | _ => [] end.
Definition case_place : Z := Eval vm_compute in match last_xref_offset case_file with Ok z => z | _ => 0%Z end.
Definition item (d : bool) (p : xentry * obj) : fentry := {| f_entry := fst p; f_object := snd p; f_dirty := d |}.
(** the opened document: some of 4, 5 and 7 were changed *)
Definition case_source (d4 d5 d7 : bool) : fsection :=
  {| f_offset := case_place;
     f_items := [item false (used 1 (ODict [(str "Pages", ORef 4 0)])); item d4 (used 4 (OStream [(str "Length", ORef 5 0)] (str "q Q")));
                 item d5 (used 5 (OInt 5)); item false (used 6 (OName (str "FlateDecode")));
                 item d7 (used 7 (OStream [(str "Filter", ORef 6 0); (str "Length", OInt 3)] (str "abc")))];
     f_trailer := [(str "Root", ORef 1 0); (str "Size", OInt 6)] |}.
(** the body of 4 and of 7 was set *)
Definition case_body (n g : N) : option bytes := if (n =? 4) || (n =? 7) then Some (str "BT ET") else None.
Definition no_jpeg (_ : list (bytes * obj)) (_ : bytes) : res bytes := Throw ENotSupported.
Definition no_zip (_ : bytes) : res bytes := Throw ENotSupported.
Definition case_changed : bytes := Eval vm_compute in match write_update (encode_set no_zip no_jpeg) case_body case_file [case_source true true false] with Ok b => b | _ => [] end.
Definition case_spoiled : bytes := Eval vm_compute in match write_update (encode_set no_zip no_jpeg) case_body case_file [case_source false false true] with Ok b => b | _ => [] end.
Ltac doc_cases H := unfold case_document in H; cbn [In] in H; repeat match type of H with _ \/ _ => destruct H as [H|H] | False => destruct H end;
  apply pair_equal_spec in H; destruct H as [<- <-].
Lemma case_base : exists revs, conforming case_file PDF14 revs /\ revisions case_file (Z.to_N case_place) revs.
Proof.
  assert (Hs : saveable_document case_document).
  { split; [|split; [vm_compute; reflexivity|split]].
    - unfold case_document. cbn [map fst xnum used]. repeat (apply SSorted_cons; [|repeat (apply Forall_cons; [reflexivity|]); apply Forall_nil]). apply SSorted_nil.
    - intros e o next H Hd. doc_cases H; cbn [xdata] in Hd; try discriminate Hd. assert (next = 0) by congruence. subst next. reflexivity.
    - intros e o H. doc_cases H; (split; [repeat split; cbn; lia || reflexivity|]); intros off _; try (apply sv_direct; Save.write_it; fail).
      + apply sv_stream; [Save.write_it|vm_compute; reflexivity|]. intros x Hx. right. cbn [In] in Hx. destruct Hx as [Hx|[]].
        apply (f_equal snd) in Hx. cbn [snd] in Hx. exists 5, 0, 3%Z. split; [congruence|]. split; [|lia]. exists 0%Z. unfold case_document. cbn [In used]. tauto.
      + apply sv_stream; [Save.write_it|vm_compute; reflexivity|]. intros x Hx. left. cbn [In] in Hx. destruct Hx as [Hx|[Hx|[]]]; [apply (f_equal fst) in Hx; vm_compute in Hx; discriminate Hx|].
        apply (f_equal snd) in Hx. cbn [snd] in Hx. exists 3%Z. split; [congruence|lia]. }
  assert (Ew : write_document PDF14 case_document case_trailer = Ok case_file) by (vm_compute; reflexivity).
  destruct (document_written PDF14 case_document case_trailer case_file Hs) as (r & H1 & _); [unfold case_trailer; Save.write_it|..|exact Ew|vm_compute; discriminate|].
  { intros x Hx. cbn [In case_trailer] in Hx. destruct Hx as [Hx|[]]. apply (f_equal fst) in Hx. vm_compute in Hx. discriminate Hx. }
  { intros x Hx. cbn [In case_trailer] in Hx. destruct Hx as [Hx|[]]. apply (f_equal fst) in Hx. vm_compute in Hx. discriminate Hx. }
  exists [r]. split; [exact H1|]. destruct (newest_place _ _ _ H1) as (off & Hr & E).
  assert (Eo : last_xref_offset case_file = Ok case_place) by (vm_compute; reflexivity). rewrite E in Eo. apply Ok_inj in Eo. rewrite <- Eo, N2Z.id. exact Hr.
Qed.

Ltac item_cases H := cbn [case_source f_items In] in H; repeat match type of H with _ \/ _ => destruct H as [H|H] | False => destruct H end; subst.
Lemma case_once : forall a b c, changed_once [case_source a b c].
Proof.
  intros a b c c1 s1 c2 i1 x1 i2 Ec Ei D. destruct c1 as [|y c1]; [|injection Ec as _ Ec; destruct c1; discriminate Ec]. cbn [app] in Ec. assert (E1 : s1 = case_source a b c) by congruence. assert (E2 : c2 = []) by congruence. subst s1 c2. split; [|intros ? ? []].
  intros x2 Hx2 _ E. assert (Hnd : NoDup (map (fun x => xnum (f_entry x)) (f_items (case_source a b c)))).
  { cbn [case_source f_items map item f_entry fst used xnum]. repeat (constructor; [cbn [In]; lia|]). constructor. }
  rewrite Ei, map_app in Hnd. cbn [map] in Hnd. apply NoDup_remove_2 in Hnd. apply Hnd. apply in_or_app. right. rewrite <- E. apply (in_map (fun x => xnum (f_entry x))), Hx2.
Qed.
Lemma case_ready : changes_ready (case_source true true false) [] /\ changes_ready (case_source false false true) [].
Proof.
  assert (Ht : writable (ODict [(str "Root", ORef 1 0); (str "Size", OInt 6)])) by Save.write_it.
  assert (Hx : forall v, ~ In (str "XRefStm", v) [(str "Root", ORef 1 0); (str "Size", OInt 6)]) by (intros v [E|[E|[]]]; apply (f_equal fst) in E; vm_compute in E; discriminate E).
  split; (split; [|split; [apply case_once|split; [exact Ht|split; [exact Hx|split; [vm_compute; split; [discriminate|reflexivity]|vm_compute; reflexivity]]]]]); intros s x [<-|[]] Hi D; item_cases Hi; try discriminate D;
    cbn [item used f_entry f_object fst snd xdata]; (split; [repeat split; cbn; lia || reflexivity|]).
  - apply sv_stream; [Save.write_it|vm_compute; reflexivity|]. intros v [E|[]]. right. exists 5, 0, 5%Z. apply (f_equal snd) in E. cbn [snd] in E. split; [congruence|]. split; [|lia]. exists 0%Z.
    unfold changed_objects. cbn [flat_map case_source f_items changed_item item used f_dirty f_entry f_object fst snd xdata app In]. tauto.
  - apply sv_direct; Save.write_it.
  - apply sv_stream; [Save.write_it|vm_compute; reflexivity|]. intros v [E|[E|[]]]; [apply (f_equal fst) in E; vm_compute in E; discriminate E|]. left. apply (f_equal snd) in E. cbn [snd] in E. exists 3%Z. split; [congruence|lia].
Qed.
(** what the library itself finds in a file *)
Definition show (file : bytes) (n : N) : res obj :=
  match initialize parser_dictionary SharedLength.no_filter 2 [] file with
  | Ok (_, ByTable c) => get_object 3 file c n 0
  | _ => Throw EGeneral
  end.
Example C98_case : exists revs, conforming case_file PDF14 revs /\ revisions case_file (Z.to_N (f_offset (case_source true true false))) revs /\
  changes_ready (case_source true true false) [] /\ direct_filters case_body [case_source true true false] /\
  (forall x, ~ In (str "Prev", x) (f_trailer (case_source true true false))) /\
  changed_live [case_source true true false] {| xnum := 4; xgen := 0; xdata := KUsed 0 true |} (OStream [(str "Length", ORef 5 0)] (str "q Q")) /\
  write_update (encode_set no_zip no_jpeg) case_body case_file [case_source true true false] = Ok case_changed /\ (Z.of_nat (List.length case_changed) <= 10 ^ 10)%Z /\
  show case_changed 4 = Ok (OStream [(str "Length", ORef 5 0)] (str "BT ET")) /\
  (* only the stream was changed *)
  (changed_live [case_source true false false] {| xnum := 4; xgen := 0; xdata := KUsed 0 true |} (OStream [(str "Length", ORef 5 0)] (str "q Q")) /\
   (forall o, ~ has (changed_objects [case_source true false false]) 5 0 o) /\ write_changes case_file [case_source true false false] = Throw EConversion) /\
  (* the stream with a filter was changed *)
  changes_ready (case_source false false true) [] /\ unchanged [case_source false false true] 6 /\
  changed_live [case_source false false true] {| xnum := 7; xgen := 0; xdata := KUsed 0 true |} (OStream [(str "Filter", ORef 6 0); (str "Length", OInt 3)] (str "abc")) /\
  write_update (encode_set no_zip no_jpeg) case_body case_file [case_source false false true] = Ok case_spoiled /\ (Z.of_nat (List.length case_spoiled) <= 10 ^ 10)%Z /\
  show case_spoiled 7 = Ok (OStream [(str "Filter", ORef 6 0); (str "Length", OInt 5)] (str "BT ET")) /\ show case_spoiled 6 = Ok (OName (str "FlateDecode")).
Proof.
  destruct case_base as (revs & H1 & H2). destruct case_ready as [R1 R2]. exists revs. split; [exact H1|]. split; [exact H2|]. split; [exact R1|]. split; [|split; [|split; [|split; [|split; [|split; [|split; [|split; [exact R2|]]]]]]]].
  - intros e m d (s & off & [<-|[]] & _ & Hi) _ n g. cbn [case_source f_items In] in Hi.
    repeat match type of Hi with _ \/ _ => destruct Hi as [Hi|Hi] | False => destruct Hi end; assert (D := f_equal f_dirty Hi); cbn [item f_dirty] in D; try discriminate D; assert (O := f_equal f_object Hi); cbn [item used f_object snd] in O; try discriminate O.
    assert (Em : m = [(str "Length", ORef 5 0)]) by congruence. subst m. split; intros [E|[]]; apply (f_equal fst) in E; vm_compute in E; discriminate E.
  - intros x [E|[E|[]]]; apply (f_equal fst) in E; vm_compute in E; discriminate E.
  - exists (case_source true true false), 0%Z. split; [left; reflexivity|]. split; [reflexivity|]. right. left. reflexivity.
  - vm_compute. reflexivity.
  - vm_compute. discriminate.
  - vm_compute. reflexivity.
  - split; [|split].
    + exists (case_source true false false), 0%Z. split; [left; reflexivity|]. split; [reflexivity|]. right. left. reflexivity.
    + intros o (off & Ho). unfold changed_objects in Ho. cbn [flat_map case_source f_items changed_item item used f_dirty f_entry f_object fst snd xdata app In] in Ho.
      destruct Ho as [Ho|[]]. apply (f_equal (fun p => xnum (fst p))) in Ho. cbn in Ho. discriminate Ho.
    + vm_compute. reflexivity.
  - split; [|split; [|split; [vm_compute; reflexivity|split; [vm_compute; discriminate|split; vm_compute; reflexivity]]]].
    + intros s x [<-|[]] Hi D. item_cases Hi; try discriminate D. cbn. discriminate.
    + exists (case_source false false true), 0%Z. split; [left; reflexivity|]. split; [reflexivity|]. right. right. right. right. left. reflexivity.
Qed.

Print Assumptions C98_updated_partial.
Print Assumptions C98_update_succeeds_partial.
Print Assumptions C98_unchanged_length_refuted.
Print Assumptions C98_direct_lengths.
Print Assumptions C98_unchanged_filter_refuted.

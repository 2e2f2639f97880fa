(** C95: files saved with a cross-reference stream follow the standard, and mean the document that was saved. *)
From Coq Require Import List NArith ZArith Bool Lia String Sorted.
From Coq Require Import List.
From Verif.Model Require Import Base Char Numbers SMap Object Xref StartXref Header FileWrite Chain StreamFile StreamBody.
From Verif.Spec Require Import Strings Grammar Xref FileWrite StreamFile StreamBody Conforming Compressed WrittenStream.
From Verif.Proof Require Import StreamObj Tac Strings SMap FileWrite Loading StreamFile WrittenStream.
From Verif.Props Require Import StreamFile.
Import ListNotations.
Local Open Scope N_scope.

(** what the standard says that a file with one section means, when the entries [l] were saved *)
Definition means_entries decode file (revs : list revision) (self : N * N) (l : list (xentry * obj)) : Prop :=
  (forall n g, (forall e o, In (e, o) l -> xnum e <> n) -> means decode file revs n g ONull) /\
  (forall e o, In (e, o) l -> (xnum e, xgen e) <> self ->
    match xdata e with
    | KFree _ => forall g, means decode file revs (xnum e) g ONull
    | KComp _ _ => means decode file revs (xnum e) 0 o /\ forall g, g <> 0 -> means decode file revs (xnum e) g ONull
    | KUsed _ _ => (~ is_object_stream l (xnum e) -> exists o', means decode file revs (xnum e) (xgen e) o' /\ same_object o o') /\
        forall g, g <> xgen e -> means decode file revs (xnum e) g ONull
    end) /\
  (* an object stream keeps everything but its counts *)
  (forall k, is_object_stream l k -> exists m d m' d', StreamFile.in_use l k 0 (OStream m d) /\ means decode file revs k 0 (OStream m' d') /\
    forall x, all_bytes x -> ~ In x [str "Length"; str "N"; str "First"] -> sm_find x m' = sm_find x m) /\
  (* the cross-reference stream has one generation *)
  (forall g, g <> snd self -> means decode file revs (fst self) g ONull).

(** Every file that is saved with a cross-reference stream is one as the standard describes it, but for the row of that stream for itself;
    its section has the document's trailer entries; and every reference stands for the object the document has, when the indexes
    of compressed objects are their places (the other documents: C95_index_refuted).  The one row: C95_own_row_refuted. *)
Theorem C95_saved_partial : forall supported encode decode v self hdr l file,
  codec supported encode decode -> document supported self hdr l -> indexes_are_places l ->
  write_stream_document encode v self hdr l = Ok file -> N.of_nat (List.length file) < 2 ^ 63 ->
  exists r, follows_but_own_rows decode file v [r] /\ v_self r = Some self /\ rows_known [r] /\ types_given [r] /\
    sm_find (str "Size") (v_trailer r) = Some (OInt (Z.of_nat (List.length l))) /\
    (forall k, all_bytes k -> ~ In k own_keys -> sm_find k (v_trailer r) = sm_find k hdr) /\
    means_entries decode file [r] self l.
Proof.
  intros supported encode decode v self hdr l file CD D Hp Hw Hlen.
  destruct (saved_parts supported encode decode CD self hdr l D v file Hw Hlen) as (l2 & off & m & enc & data & w1 & w2 & w3 & index & S).
  destruct (dc_self _ _ _ _ D) as (os & offs & Hs). exists (saved_rev self l2 m). split; [|split; [reflexivity|split; [|split; [|split; [|split; [|split; [|split; [|split]]]]]]]].
  - eapply saved_follows; [exact D|exact S|exact Hlen|exact Hs|discriminate].
  - intros s n t [<-|[]] Hin. cbn [saved_rev v_rows] in Hin. apply in_map_iff in Hin. destruct Hin as (e & E & _). unfold listed in E. apply pair_equal_spec in E. destruct E as [_ E].
    unfold row_of_entry in E. destruct (xdata e); discriminate.
  - intros s t w [<-|[]] _ Hin E. cbn [saved_rev v_trailer] in Hin. apply in_header in Hin; [|exact (sv_map _ _ _ _ _ _ _ _ _ _ _ _ _ _ _ _ S)|apply str_bytes].
    rewrite (sv_W _ _ _ _ _ _ _ _ _ _ _ _ _ _ _ _ S) in Hin. assert (X := f_equal (fun z => match z with Some (OArr (a :: _)) => a | _ => ONull end) Hin). cbv beta iota in X. subst w.
    assert (Y := sv_type _ _ _ _ _ _ _ _ _ _ _ _ _ _ _ _ S). assert (Z.of_nat w1 = 0%Z) by congruence. lia.
  - exact (sv_Size _ _ _ _ _ _ _ _ _ _ _ _ _ _ _ _ S).
  - exact (sv_other _ _ _ _ _ _ _ _ _ _ _ _ _ _ _ _ S).
  - intros n g Hn. eapply none_of; [exact S|exact Hn].
  - intros e o Hin He. destruct (xdata e) as [next|q u|k i] eqn:Ed.
    + intros g. eapply free_means; eassumption.
    + split; [intros Hn; eapply plain_means; eassumption|]. eapply (used_means); eassumption.
    + eapply packed_means; eassumption.
  - intros k Hk. eapply stream_means; eassumption.
  - intros g Hg. apply (me_other _ _ _ _ _ (Z.to_N offs) (snd self)); [|congruence]. exists [], (saved_rev self l2 m), []. split; [reflexivity|]. split; [eapply self_row; eassumption|intros x q' []].
Qed.

(** The row of the stream for itself has the place the stream had before, not the one where it is written: the file follows the standard
    if, and only if, these are the same. *)
Theorem C95_own_row_refuted : forall supported encode decode v self hdr l file own o,
  codec supported encode decode -> document supported self hdr l ->
  In ({| xnum := fst self; xgen := snd self; xdata := KUsed own true |}, o) l ->
  write_stream_document encode v self hdr l = Ok file -> N.of_nat (List.length file) < 2 ^ 63 ->
  exists place, says_start file place /\ ((exists v' revs, follows_standard decode file v' revs) <-> own = Z.of_N place).
Proof.
  intros supported encode decode v self hdr l file own o CD D Hs Hw Hlen.
  destruct (saved_parts supported encode decode CD self hdr l D v file Hw Hlen) as (l2 & off & m & enc & data & w1 & w2 & w3 & index & S).
  exists off. split; [eapply saved_start; eassumption|]. eapply own_row_only; [try eassumption..|].
  destruct (dc_entries _ _ _ _ D _ _ Hs) as (_ & _ & _ & _ & H). cbn [xnum xgen] in H. apply H. destruct self; reflexivity.
Qed.

(** An object whose recorded index is not below the number of the objects of its stream: the file has no such object, however it is
    read (the row of the stream for itself aside).  Its number is listed, so that it does not stand for null either. *)
Theorem C95_index_refuted : forall supported encode decode v self hdr l file e o k i,
  codec supported encode decode -> document supported self hdr l ->
  In (e, o) l -> xdata e = KComp k i -> members_count l k <= i ->
  write_stream_document encode v self hdr l = Ok file -> N.of_nat (List.length file) < 2 ^ 63 ->
  (exists revs, follows_but_own_rows decode file v revs) /\
  forall v' revs, follows_but_own_rows decode file v' revs -> listed_last revs (xnum e) (Packed k i) /\ forall x, ~ means decode file revs (xnum e) 0 x.
Proof.
  intros supported encode decode v self hdr l file e o k i CD D Hin Ed Hi Hw Hlen.
  destruct (saved_parts supported encode decode CD self hdr l D v file Hw Hlen) as (l2 & off & m & enc & data & w1 & w2 & w3 & index & S).
  destruct (dc_self _ _ _ _ D) as (os & offs & Hs). split.
  - exists [saved_rev self l2 m]. eapply saved_follows; [exact D|exact S|exact Hlen|exact Hs|discriminate].
  - intros v' revs Hf. split; [eapply index_listed; eassumption|]. intros x. eapply index_beyond; eassumption.
Qed.

(** The document of C21_stream_file_case, with the indexes [i] and [j] for the two objects of its object stream, and the place [own] for
    its cross-reference stream. *)
Definition c95_document (own : Z) (i j : N) : list (xentry * obj) :=
  [ ({| xnum := 0; xgen := 65535; xdata := KFree 0 |}, ONull);
    ({| xnum := 1; xgen := 0; xdata := KUsed 17 true |}, OStream [c21_flate; (str "Length", OInt 7)] [9; 3; 2; 1]);
    ({| xnum := 2; xgen := 0; xdata := KComp 7 i |}, ODict [(str "Type", OName (str "Catalog"))]);
    ({| xnum := 3; xgen := 0; xdata := KComp 7 j |}, OArr [OInt 5; ORef 1 0]);
    ({| xnum := 7; xgen := 0; xdata := KUsed 99 true |}, OStream [c21_flate; (str "Type", OName (str "ObjStm"))] []);
    ({| xnum := 8; xgen := 0; xdata := KUsed own true |}, ONull) ].
Lemma c95_ok : forall own i j, (0 <= own < 2 ^ 63)%Z -> i < 2 ^ 63 -> j < 2 ^ 63 -> document flate_only (8, 0) c21_header (c95_document own i j).
Proof.
  intros own i j Ho Hi Hj.
  assert (F : forall m, sm_find (str "Filter") m = Some (OName (str "FlateDecode")) -> sm_find (str "DecodeParms") m = None -> flate_only m).
  { intros m Hf Hp. exists [str "FlateDecode"]. split; [apply fl_name, Hf|]. split; [intros [X|[]]; discriminate|left; exact Hp]. }
  assert (U7 : exists m d, StreamFile.in_use (c95_document own i j) 7 0 (OStream m d) /\ flate_only m).
  { exists [c21_flate; (str "Type", OName (str "ObjStm"))], []. split; [exists 99%Z; unfold c95_document; cbn [In]; tauto|]. apply F; reflexivity. }
  constructor.
  - repeat constructor.
  - eexists _, _. split; reflexivity.
  - cbn. lia.
  - intros e o Hin. unfold c95_document in Hin. cbn [In] in Hin.
    repeat (destruct Hin as [X|Hin]; [apply pair_equal_spec in X; destruct X as [<- <-]; unfold entry_ok; cbn [xnum xgen xdata fst]|]); [..|destruct Hin]; (split; [reflexivity|]); (split; [discriminate|]).
    + reflexivity.
    + split; [reflexivity|]. split; [|discriminate]. apply st_stream; [wdict| |reflexivity]. intros v [X|[X|[]]]; [discriminate|]. apply (f_equal snd) in X. cbn [snd] in X. subst v. exists 7%Z. split; [reflexivity|discriminate].
    + split; [reflexivity|]. split; [exact Hi|]. split; [wdict|]. split; [discriminate|exact U7].
    + split; [reflexivity|]. split; [exact Hj|]. split; [|split; [discriminate|exact U7]]. apply w_arr. repeat constructor; discriminate.
    + split; [reflexivity|]. split; [|discriminate]. apply st_stream; [wdict| |reflexivity]. intros v [X|[X|[]]]; discriminate.
    + split; [reflexivity|]. split; [apply st_direct; constructor|]. intros _. exact Ho.
  - exists ONull, own. unfold c95_document. cbn [In fst snd]. tauto.
  - apply st_stream; [wdict| |reflexivity]. intros v [X|[X|[]]]; discriminate.
  - reflexivity.
  - exists []. split; [apply fl_none; reflexivity|]. split; [intros []|left; reflexivity].
  - vm_compute. reflexivity.
Qed.
Lemma c95_places : forall own, indexes_are_places (c95_document own 1 0).
Proof.
  intros own k. set (a := ({| xnum := 2; xgen := 0; xdata := KComp 7 1 |}, ODict [(str "Type", OName (str "Catalog"))])).
  set (b := ({| xnum := 3; xgen := 0; xdata := KComp 7 0 |}, OArr [OInt 5; ORef 1 0])).
  exists (if k =? 7 then [b; a] else []). intros e o i. unfold c95_document. fold a b. cbn [In]. destruct (k =? 7) eqn:Ek; split.
  - intros [H Ed]. repeat (destruct H as [H|H]; [apply pair_equal_spec in H; destruct H as [<- <-]; cbn [xdata] in Ed; try discriminate Ed; assert (E := f_equal (fun z => match z with KComp _ x => x | _ => 9 end) Ed); cbv beta iota in E; subst i; reflexivity|]).
    destruct H.
  - intros H. assert (k = 7) by lia. subst k. destruct (N.to_nat i) as [|[|x]] eqn:Ei; cbn [nth_error] in H.
    + assert (E : b = (e, o)) by congruence. split; [tauto|]. assert (e = fst b) by (rewrite E; reflexivity). subst e. cbn [b fst xdata]. f_equal. lia.
    + assert (E : a = (e, o)) by congruence. split; [tauto|]. assert (e = fst a) by (rewrite E; reflexivity). subst e. cbn [a fst xdata]. f_equal. lia.
    + destruct x; discriminate H.
  - intros [H Ed]. exfalso. repeat (destruct H as [H|H]; [apply pair_equal_spec in H; destruct H as [<- <-]; cbn [xdata] in Ed; try discriminate Ed; assert (E := f_equal (fun z => match z with KComp x _ => x | _ => 9 end) Ed); cbv beta iota in E; subst k; discriminate Ek|]).
    destruct H.
  - intros H. destruct (N.to_nat i); discriminate H.
Qed.
Definition c95_file (own : Z) (i j : N) : res bytes := write_stream_document (encode_in_memory c21_deflate c21_inflate) PDF15 (8, 0) c21_header (c95_document own i j).
Lemma c95_codec : codec flate_only (encode_in_memory c21_deflate c21_inflate) (decode_plain c21_inflate).
Proof. apply C21_library_codec. intros d e H. apply Ok_inj in H. subst e. unfold c21_inflate. rewrite rev_involutive. reflexivity. Qed.
Lemma digits_split : forall a b x y, Forall decimal_digit a -> Forall decimal_digit b -> a ++ 10 :: x = b ++ 10 :: y -> a = b.
Proof.
  assert (N10 : ~ decimal_digit 10) by (unfold decimal_digit; lia).
  induction a as [|c a IH]; intros [|d b] x y Ha Hb E; cbn [app] in E; [reflexivity|..].
  - inversion Hb as [|? ? H]; subst. exfalso. apply N10. assert (d = 10) by congruence. subst d. exact H.
  - inversion Ha as [|? ? H]; subst. exfalso. apply N10. assert (c = 10) by congruence. subst c. exact H.
  - inversion Ha; subst. inversion Hb; subst. f_equal; [congruence|]. apply (IH b x y); try assumption. congruence.
Qed.
(** a file says one start *)
Lemma start_once : forall file p q, says_start file p -> says_start file q -> p = q.
Proof.
  intros file p q (b1 & d1 & E1 & _ & F1 & V1) (b2 & d2 & E2 & _ & F2 & V2). rewrite E1 in E2. apply (f_equal (@rev N)) in E2.
  rewrite !rev_app_distr, <- !app_assoc in E2. do 3 apply app_inv_head in E2.
  assert (E : rev d1 = rev d2) by (eapply digits_split; [apply Forall_rev; exact F1|apply Forall_rev; exact F2|exact E2]).
  apply (f_equal (@rev N)) in E. rewrite !rev_involutive in E. subst d2. congruence.
Qed.
Definition c95_bytes (own : Z) (i j : N) : bytes := match c95_file own i j with Ok f => f | _ => [] end.
Lemma c95_facts : forall own i j, c95_file own i j = Ok (c95_bytes own i j) -> N.of_nat (List.length (c95_bytes own i j)) = 442 ->
  skipn 422 (c95_bytes own i j) = str "startxref" ++ [10] ++ str "279" ++ [10] ++ str "%%EOF" ++ [10] ->
  N.of_nat (List.length (c95_bytes own i j)) < 2 ^ 63 /\ says_start (c95_bytes own i j) 279.
Proof.
  intros own i j E L T. split; [rewrite L; reflexivity|]. exists (firstn 422 (c95_bytes own i j)), (str "279"). split.
  - rewrite <- T, firstn_skipn. reflexivity.
  - split; [discriminate|]. split; [repeat constructor; discriminate|reflexivity].
Qed.
(** The file that is saved first follows the standard but for one row; with the place that it gives its stream in that row, it follows all
    of it; with other indexes an object is lost. *)
Example C95_saved_case : exists file, c95_file 123 1 0 = Ok file /\ (exists r, follows_but_own_rows (decode_plain c21_inflate) file PDF15 [r] /\
    means (decode_plain c21_inflate) file [r] 2 0 (ODict [(str "Type", OName (str "Catalog"))]) /\
    means (decode_plain c21_inflate) file [r] 3 0 (OArr [OInt 5; ORef 1 0]) /\ means (decode_plain c21_inflate) file [r] 5 0 ONull).
Proof.
  assert (E : c95_file 123 1 0 = Ok (c95_bytes 123 1 0)) by (vm_compute; reflexivity).
  destruct (c95_facts 123 1 0 E ltac:(vm_compute; reflexivity) ltac:(vm_compute; reflexivity)) as [L _]. exists (c95_bytes 123 1 0). split; [exact E|].
  destruct (C95_saved_partial _ _ _ _ _ _ _ _ c95_codec (c95_ok 123 1 0 ltac:(split; [discriminate|reflexivity]) ltac:(reflexivity) ltac:(reflexivity)) (c95_places 123) E L) as (r & F & _ & _ & _ & _ & _ & M1 & M2 & _).
  exists r. split; [exact F|]. split; [|split].
  - destruct (M2 {| xnum := 2; xgen := 0; xdata := KComp 7 1 |} (ODict [(str "Type", OName (str "Catalog"))])) as [M _]; [unfold c95_document; cbn [In]; tauto|discriminate|exact M].
  - destruct (M2 {| xnum := 3; xgen := 0; xdata := KComp 7 0 |} (OArr [OInt 5; ORef 1 0])) as [M _]; [unfold c95_document; cbn [In]; tauto|discriminate|exact M].
  - apply M1. intros e o H. unfold c95_document in H. cbn [In] in H. repeat (destruct H as [H|H]; [apply pair_equal_spec in H; destruct H as [<- _]; discriminate|]). destruct H.
Qed.
Example C95_own_row_case :
  (forall v' revs, ~ follows_standard (decode_plain c21_inflate) (c95_bytes 123 1 0) v' revs) /\ exists v' revs, follows_standard (decode_plain c21_inflate) (c95_bytes 279 1 0) v' revs.
Proof.
  split.
  - intros v' revs H. assert (E : c95_file 123 1 0 = Ok (c95_bytes 123 1 0)) by (vm_compute; reflexivity).
    destruct (c95_facts 123 1 0 E ltac:(vm_compute; reflexivity) ltac:(vm_compute; reflexivity)) as [L T].
    destruct (C95_own_row_refuted _ _ _ _ _ _ _ _ 123%Z ONull c95_codec (c95_ok 123 1 0 ltac:(split; [discriminate|reflexivity]) ltac:(reflexivity) ltac:(reflexivity))
      ltac:(unfold c95_document; cbn [In fst snd]; tauto) E L) as (place & P & Q). rewrite (start_once _ _ _ P T) in Q. assert (X := proj1 Q (ex_intro _ v' (ex_intro _ revs H))). discriminate X.
  - assert (E : c95_file 279 1 0 = Ok (c95_bytes 279 1 0)) by (vm_compute; reflexivity).
    destruct (c95_facts 279 1 0 E ltac:(vm_compute; reflexivity) ltac:(vm_compute; reflexivity)) as [L T].
    destruct (C95_own_row_refuted _ _ _ _ _ _ _ _ 279%Z ONull c95_codec (c95_ok 279 1 0 ltac:(split; [discriminate|reflexivity]) ltac:(reflexivity) ltac:(reflexivity))
      ltac:(unfold c95_document; cbn [In fst snd]; tauto) E L) as (place & P & Q). rewrite (start_once _ _ _ P T) in Q. apply Q. reflexivity.
Qed.
(** the first of three objects was removed from the object stream; the others keep their indexes 1 and 2 *)
Example C95_index_case : forall v' revs x, follows_but_own_rows (decode_plain c21_inflate) (c95_bytes 123 2 1) v' revs -> ~ means (decode_plain c21_inflate) (c95_bytes 123 2 1) revs 2 0 x.
Proof.
  assert (E : c95_file 123 2 1 = Ok (c95_bytes 123 2 1)) by (vm_compute; reflexivity).
  destruct (c95_facts 123 2 1 E ltac:(vm_compute; reflexivity) ltac:(vm_compute; reflexivity)) as [L T].
  intros v' revs x Hf. apply (proj2 (proj2 (C95_index_refuted flate_only (encode_in_memory c21_deflate c21_inflate) (decode_plain c21_inflate) PDF15 (8, 0) c21_header (c95_document 123 2 1) (c95_bytes 123 2 1)
    {| xnum := 2; xgen := 0; xdata := KComp 7 2 |} (ODict [(str "Type", OName (str "Catalog"))]) 7 2 c95_codec
    (c95_ok 123 2 1 ltac:(split; [discriminate|reflexivity]) ltac:(reflexivity) ltac:(reflexivity)) ltac:(unfold c95_document; cbn [In]; tauto) eq_refl ltac:(vm_compute; discriminate) E L) v' revs Hf)).
Qed.

Print Assumptions C95_saved_partial.
Print Assumptions C95_own_row_refuted.
Print Assumptions C95_index_refuted.

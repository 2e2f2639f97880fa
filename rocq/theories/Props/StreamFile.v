(** C21 (documents with a cross-reference stream): what was saved is what a reader of the file gets. *)
From Coq Require Import List NArith ZArith Bool Lia String Sorted.
From Verif.Model Require Import Base Char Numbers SMap Object Token Parser Arith Xref ObjStream StartXref Header FileWrite Chain Loading StreamFile StreamBody.
From Verif.Spec Require Import Strings Grammar Xref FileWrite Loading StreamFile StreamBody.
From Verif.Proof Require Import StreamObj Tac Strings SMap FileWrite Loading StreamFile.
From Verif.Props Require Import Loading StreamBody.
Import ListNotations.
Local Open Scope N_scope.

(** A document with any objects, used, compressed into any object streams, or free, saved with a cross-reference stream: the file has the
    header and the offset of the section, the section is read with the same trailer entries, and whatever a program asks for, changes and
    saves, in any order, it gets the objects that were saved (until it changes them itself).
    Partial: a single section whose numbers start with 0 (C17), streams with direct lengths, filters that can be encoded. *)
Theorem C21_stream_file_reopens_partial : forall supported encode decode rl v self hdr l file,
  codec supported encode decode -> document supported self hdr l ->
  write_stream_document encode v self hdr l = Ok file -> (Z.of_nat (List.length file) < 2 ^ 63)%Z ->
  exists offset entries m d start,
    read_header file = Ok v /\ last_xref_offset file = Ok offset /\
    (forall fuel, read_chain parser_dictionary decode (S fuel) file offset =
       Ok [ {| s_kind := SStream; s_entries := entries; s_hybrid := None; s_trailer := m |} ]) /\
    sm_find (str "Size") m = Some (OInt (Z.of_nat (List.length l))) /\
    (forall k, all_bytes k -> ~ In k own_keys -> sm_find k m = sm_find k hdr) /\
    reopened_objects self l (OStream m d) start /\
    forall fuel ops, (2 <= fuel)%nat -> Forall (spares_streams [entries]) ops ->
      Forall2 answers (fst (lrun (object_at rl file self (OStream m d)) (objects_in rl decode) fuel ops (opened [entries])))
        (fst (expected_all [entries] ops start)).
Proof.
  intros supported encode decode rl v self hdr l file CD Dc Hw Hlen.
  destruct (stream_file_reopened supported encode decode CD rl self hdr l Dc v file Hw Hlen) as (offset & E & m & d & A1 & A2 & A3 & A4 & A5 & Ord & Hobj & Hmiss & Hobjs).
  set (RA := object_at rl file self (OStream m d)) in *. set (IN := objects_in rl decode) in *.
  assert (Hlo := lookup_original [E] RA IN Ord). assert (Hun := fun n g o o' => Loading.orig_unique [E] RA IN Ord n g o o').
  exists offset, E, m, d, (lookup [E] RA IN). split; [exact A1|]. split; [exact A2|]. split; [exact A3|]. split; [exact A4|]. split; [exact A5|]. split.
  - split; [|split; [|split]].
    + intros n g Hn. apply (Hun n g); [apply Hlo|apply Hmiss, Hn].
    + destruct (dc_self _ _ _ _ Dc) as (o & off & Hs). specialize (Hobjs _ _ Hs). cbn [xdata xnum xgen] in Hobjs. destruct self as [sn sg]. cbn [fst snd is_self xnum xgen] in *.
      rewrite !N.eqb_refl in Hobjs. cbn [andb] in Hobjs. apply (Hun sn sg); [apply Hlo|exact Hobjs].
    + intros e o Hin He. specialize (Hobjs e o Hin). destruct (xdata e).
      * eapply Hun; [apply Hlo|exact Hobjs].
      * intros Hn. destruct (is_self (Some self) e) eqn:Es; [exfalso; apply He; apply (proj1 (self_spec self e)); exact Es|]. destruct Hobjs as (o' & Ho & Hso & _). rewrite (Hun _ _ _ _ (Hlo _ _) Ho). apply Hso, Hn.
      * eapply Hun; [apply Hlo|exact Hobjs].
    + intros k Hk. assert (Hk' := Hk). destruct Hk' as (ec & oc & ic & Hc & Ed). destruct (dc_entries _ _ _ _ Dc _ _ Hc) as (_ & _ & C). rewrite Ed in C.
      destruct C as (_ & _ & _ & Cs & m1 & d1 & (off & Hu) & _). specialize (Hobjs _ _ Hu). cbn [xdata xnum xgen] in Hobjs.
      destruct (is_self (Some self) _) eqn:Es; [exfalso; apply Cs; apply (proj1 (self_spec self _)) in Es; cbn [xnum xgen] in Es; rewrite <- Es; reflexivity|].
      destruct Hobjs as (o' & Ho & _ & Hst). destruct (Hst Hk) as (m1' & d1' & m2 & d2 & X & -> & Hf). injection X as <- <-. exists m1, d1, m2, d2.
      split; [exists off; exact Hu|]. split; [apply (Hun k 0); [apply Hlo|exact Ho]|]. intros x Hx Hn. cbn [In] in Hn. apply Hf; [exact Hx|intros X; apply Hn; auto..].
  - intros fuel ops Hf Hops. destruct (C65_reads_partial [E] RA IN Ord) as (_ & R). specialize (R _ Hlo fuel ops Hf).
    specialize (R Hops). fold RA. destruct (lrun RA IN fuel ops (opened [E])) as [results st]. apply R.
Qed.

(** ** with the filters of the library *)

(** the encoding of a new body in a plain file; a buffer has less than 2^63 bytes *)
Definition encode_in_memory (deflate inflate : bytes -> res bytes) (m : StreamFile.header) (b : bytes) : res bytes :=
  do e <- get_encoded deflate inflate (fun _ _ => Throw ENotModelled) (fun _ _ => Throw ENotModelled) (fun _ _ => Throw ENotModelled)
            (fun _ _ => Throw ENotModelled) (fun _ _ => Throw ENotModelled) false false (set_body (loaded m false []) true b);;
  if N.of_nat (List.length e) <? 2 ^ 63 then Ok e else Throw EGeneral.
Definition decode_plain (inflate : bytes -> res bytes) (m : StreamFile.header) (b : bytes) : res bytes :=
  get_body inflate (fun _ _ => Throw ENotModelled) (fun _ _ => Throw ENotModelled) (fun _ _ => Throw ENotModelled) false (loaded m false b).
(** no filter, or any number of FlateDecode without prediction *)
Definition flate_only (m : StreamFile.header) : Prop := exists ns, filter_list m ns /\ ~ In (str "DCTDecode") ns /\ plain_parameters m (List.length ns).

Lemma decode_same : forall inflate m m' b, same_filters m m' -> decode_plain inflate m' b = decode_plain inflate m b.
Proof.
  intros inflate m m' b (H1 & H2). unfold decode_plain, get_body, find_obj, find_array, Encryption.find_dict, sm_contains. cbn [loaded decoded StreamBody.header]. unfold get_decrypted.
  cbn [loaded decrypted exempt negb orb raw]. rewrite H1, H2. reflexivity.
Qed.
Theorem C21_library_codec : forall deflate inflate, undoes deflate inflate ->
  codec flate_only (encode_in_memory deflate inflate) (decode_plain inflate).
Proof.
  intros deflate inflate Hz. constructor.
  - intros m m' (H1 & H2) (ns & A & B & C). exists ns. split; [|split; [exact B|]].
    + destruct A as [x E|x E|x n E|x ns E]; rewrite <- H1 in E; [apply fl_none|apply fl_null|apply fl_name|apply fl_array]; exact E.
    + unfold plain_parameters in *. rewrite H2. exact C.
  - intros m m' data b (ns & A & B & C) Hs He. rewrite (decode_same inflate m m' b Hs). unfold encode_in_memory in He. apply rbind_ok in He. destruct He as (e & He & H).
    destruct (N.of_nat (List.length e) <? 2 ^ 63); [|discriminate]. apply Ok_inj in H. subst e.
    unfold decode_plain. eapply (C32_set_body_partial) with (s := loaded m false []) (ns := ns) in He; [exact He|exact Hz|intros h x y H; discriminate H|exact A|exact B|exact C|].
    intros _. left. reflexivity.
  - intros m data b He. unfold encode_in_memory in He. apply rbind_ok in He. destruct He as (e & _ & H).
    destruct (N.of_nat (List.length e) <? 2 ^ 63) eqn:L; [|discriminate]. apply Ok_inj in H. subst e. apply N.ltb_lt, L.
Qed.

(** A document with two objects in an object stream, a stream with its own data, a free number and a gap in the numbers; bodies are
    encoded by a filter. *)
Definition c21_deflate (b : bytes) : res bytes := Ok (9 :: rev b).
Definition c21_inflate (b : bytes) : res bytes := match b with 9 :: r => Ok (rev r) | _ => Throw EGeneral end.
Definition c21_flate : bytes * obj := (str "Filter", OName (str "FlateDecode")).
Definition c21_header : StreamFile.header := [(str "Root", ORef 2 0); (str "Type", OName (str "XRef"))].
Definition c21_document : list (xentry * obj) :=
  [ ({| xnum := 0; xgen := 65535; xdata := KFree 0 |}, ONull);
    ({| xnum := 1; xgen := 0; xdata := KUsed 17 true |}, OStream [c21_flate; (str "Length", OInt 7)] [9; 3; 2; 1]);
    ({| xnum := 2; xgen := 0; xdata := KComp 7 4 |}, ODict [(str "Type", OName (str "Catalog"))]);
    ({| xnum := 3; xgen := 0; xdata := KComp 7 1 |}, OArr [OInt 5; ORef 1 0]);
    ({| xnum := 7; xgen := 0; xdata := KUsed 99 true |}, OStream [c21_flate; (str "Type", OName (str "ObjStm"))] []);
    ({| xnum := 8; xgen := 0; xdata := KUsed 123 true |}, ONull) ].
Ltac wdict := apply writable_from;
  [unfold sm_sorted; repeat (apply SSorted_nil || (apply SSorted_cons; [|repeat (apply Forall_nil || (apply Forall_cons; [reflexivity|]))]))
  |repeat (apply Forall_nil || (apply Forall_cons; [apply str_bytes|]))
  |repeat (apply Forall_nil || (apply Forall_cons; [split; [constructor; first [apply str_bytes|split; [discriminate|reflexivity]|reflexivity|discriminate]|discriminate]|]))].
Example C21_stream_file_case : exists file, document flate_only (8, 0) c21_header c21_document /\
  write_stream_document (encode_in_memory c21_deflate c21_inflate) PDF15 (8, 0) c21_header c21_document = Ok file /\ (Z.of_nat (List.length file) < 2 ^ 63)%Z.
Proof.
  destruct (write_stream_document (encode_in_memory c21_deflate c21_inflate) PDF15 (8, 0) c21_header c21_document) as [file| | |] eqn:E;
    [|vm_compute in E; discriminate..].
  exists file. split; [|split; [reflexivity|]].
  2:{ vm_compute in E. apply Ok_inj in E. subst file. vm_compute. reflexivity. }
  clear E file.
  assert (F : forall m, sm_find (str "Filter") m = Some (OName (str "FlateDecode")) -> sm_find (str "DecodeParms") m = None -> flate_only m).
  { intros m Hf Hp. exists [str "FlateDecode"]. split; [apply fl_name, Hf|]. split; [intros [X|[]]; discriminate|left; exact Hp]. }
  assert (U7 : exists m d, in_use c21_document 7 0 (OStream m d) /\ flate_only m).
  { exists [c21_flate; (str "Type", OName (str "ObjStm"))], []. split; [exists 99%Z; cbn; tauto|]. apply F; reflexivity. }
  constructor.
  - repeat constructor.
  - eexists _, _. split; reflexivity.
  - cbn. lia.
  - intros e o Hin. unfold c21_document in Hin. cbn [In] in Hin.
    repeat (destruct Hin as [X|Hin]; [apply pair_equal_spec in X; destruct X as [<- <-]; unfold entry_ok; cbn [xnum xgen xdata fst]|]); [..|destruct Hin]; (split; [reflexivity|]); (split; [discriminate|]).
    + reflexivity.
    + split; [reflexivity|]. split; [|discriminate]. apply st_stream; [wdict| |reflexivity]. intros v [X|[X|[]]]; [discriminate|]. apply (f_equal snd) in X. cbn [snd] in X. subst v. exists 7%Z. split; [reflexivity|discriminate].
    + repeat split; [wdict|discriminate|exact U7].
    + repeat split; [|discriminate|exact U7]. apply w_arr. repeat constructor; discriminate.
    + split; [reflexivity|]. split; [|discriminate]. apply st_stream; [wdict| |reflexivity]. intros v [X|[X|[]]]; discriminate.
    + split; [reflexivity|]. split; [apply st_direct; constructor|]. intros _. split; [discriminate|reflexivity].
  - exists ONull, 123%Z. cbn. tauto.
  - apply st_stream; [wdict| |reflexivity]. intros v [X|[X|[]]]; discriminate.
  - reflexivity.
  - exists []. split; [apply fl_none; reflexivity|]. split; [intros []|left; reflexivity].
  - vm_compute. reflexivity.
Qed.

Print Assumptions C21_stream_file_reopens_partial.
Print Assumptions C21_library_codec.

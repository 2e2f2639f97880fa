(** C32: bodies of streams and their filters. *)
From Coq Require Import List NArith ZArith Bool Lia String.
From Coq Require Import List.
From Verif.Model Require Import Base SMap Object Filters Encryption StreamBody.
From Verif.Spec Require Import Strings Arith Filters StreamBody.
From Verif.Proof Require Import Tac StreamBody BodyReads.
Import ListNotations.
Local Open Scope N_scope.

(** A body that was set (or read and then changed, or kept while the filters in the header were exchanged) is what the written data
    decodes to: no filter, one filter or a list of any length, with zlib and the encryption of the file as parameters that are
    only known to undo themselves.  Missing from the full claim, and refuted below: lossy or other filters mixed in a list,
    predictors, lists of filters in encrypted files. *)
Theorem C32_body_roundtrip_partial : forall deflate inflate dct_encode dct_decode jpx_decode encrypt decrypt is_encrypted encryption_dirty,
  undoes deflate inflate -> (forall h, undoes (encrypt h) (decrypt h)) ->
  forall s ns b e, decoded s = Some b -> dirty s = true ->
  filter_list (header s) ns -> ~ In (str "DCTDecode") ns -> plain_parameters (header s) (List.length ns) ->
  (is_array (header s) -> is_encrypted = false \/ exempt s = true) ->
  get_encoded deflate inflate dct_encode dct_decode jpx_decode encrypt decrypt is_encrypted encryption_dirty s = Ok e ->
  get_body inflate dct_decode jpx_decode decrypt is_encrypted (loaded (header s) (exempt s) e) = Ok b.
Proof. intros. eapply body_back; eauto. Qed.

Theorem C32_set_body_partial : forall deflate inflate dct_encode dct_decode jpx_decode encrypt decrypt is_encrypted encryption_dirty,
  undoes deflate inflate -> (forall h, undoes (encrypt h) (decrypt h)) ->
  forall s ns b e, filter_list (header s) ns -> ~ In (str "DCTDecode") ns -> plain_parameters (header s) (List.length ns) ->
  (is_array (header s) -> is_encrypted = false \/ exempt s = true) ->
  get_encoded deflate inflate dct_encode dct_decode jpx_decode encrypt decrypt is_encrypted encryption_dirty (set_body s true b) = Ok e ->
  get_body inflate dct_decode jpx_decode decrypt is_encrypted (loaded (header s) (exempt s) e) = Ok b.
Proof.
  intros deflate inflate d1 d2 d3 enc dec ie ed Hz Hc s ns b e Hf Hd Hp Ha He.
  apply (body_back deflate inflate d1 d2 d3 enc dec ie ed Hz Hc (set_body s true b) ns b e); auto. cbn [set_body dirty]. apply orb_true_r.
Qed.

(** A stream that was not changed, whether or not its body was read, is written so that the same body is read back, whatever its
    filters are, known to the library or not, in plain and encrypted files; only the Crypt filter is excepted. *)
Theorem C32_unchanged_partial : forall deflate inflate dct_encode dct_decode jpx_decode encrypt decrypt is_encrypted encryption_dirty,
  (forall h, undoes (encrypt h) (decrypt h)) ->
  forall d ns ex data s e, filter_list d ns -> ~ In (str "Crypt") ns ->
  (s = loaded d ex data \/ read_body inflate dct_decode jpx_decode decrypt is_encrypted (loaded d ex data) = Ok s) ->
  get_encoded deflate inflate dct_encode dct_decode jpx_decode encrypt decrypt is_encrypted encryption_dirty s = Ok e ->
  get_body inflate dct_decode jpx_decode decrypt is_encrypted (loaded d ex e) = get_body inflate dct_decode jpx_decode decrypt is_encrypted (loaded d ex data).
Proof. intros. eapply unchanged_back; eauto. Qed.
(** In a plain file the very bytes are kept, also if the header was changed while the body was not read. *)
Theorem C32_data_kept : forall deflate inflate dct_encode dct_decode jpx_decode encrypt decrypt s,
  dirty s = false \/ decoded s = None ->
  get_encoded deflate inflate dct_encode dct_decode jpx_decode encrypt decrypt false false s = Ok (raw s).
Proof. intros deflate inflate d1 d2 d3 enc dec s [H|H]; unfold get_encoded; rewrite H; [reflexivity|]. now destruct (dirty s). Qed.

(** The body of a stream in any file, made by whatever software: with no filter, one filter or a list of any length of the filters
    FlateDecode (also with PNG prediction as far as C10 goes), ASCII85Decode and ASCIIHexDecode, each with its parameters, plain or
    encrypted, what is read is the body that was encoded.  Not covered: the lossy filters, LZW, and a filter of its own for decryption. *)
Theorem C32_reads_partial : forall inflate dct_decode jpx_decode decrypt is_encrypted d l ex raw data body,
  header_filters d l -> layers inflate l body data ->
  (if ex || negb is_encrypted then Ok raw else decrypt None raw) = Ok data ->
  get_body inflate dct_decode jpx_decode decrypt is_encrypted (loaded d ex raw) = Ok body.
Proof. intros. eapply body_reads; eauto. Qed.

(** Streams with the filters LZWDecode, RunLengthDecode, CCITTFaxDecode or JBIG2Decode of the standard are never read. *)
Theorem C32_other_filters_refuted : forall inflate dct_decode jpx_decode decrypt d n raw,
  In n [str "LZWDecode"; str "RunLengthDecode"; str "CCITTFaxDecode"; str "JBIG2Decode"] ->
  sm_find (str "Filter") d = Some (OName n) -> sm_find (str "DecodeParms") d = None ->
  exists e, get_body inflate dct_decode jpx_decode decrypt false (loaded d false raw) = Throw e.
Proof.
  intros inflate d1 d2 dec d n raw Hn Hf Hp. unfold get_body. set (s := loaded d false raw). change (decoded s) with (@None bytes). change (header s) with d.
  rewrite (contains_some _ _ _ Hf). cbn [negb]. unfold find_obj. rewrite Hf. cbn [rbind]. rewrite (contains_none _ _ Hp).
  assert (Hd : get_decrypted dec false s = Ok raw) by reflexivity. rewrite Hd. clearbody s.
  destruct Hn as [<-|[<-|[<-|[<-|[]]]]]; eexists; reflexivity.
Qed.

(** Hexadecimal text of text in base 85 of compressed data, the second filter with parameters. *)
Example C32_reads_case : exists inflate d l,
  header_filters d l /\ layers inflate l (str "Body") (str "40 572c65267e3e>") /\
  map fst l = [str "ASCIIHexDecode"; str "ASCII85Decode"; str "FlateDecode"].
Proof.
  exists (fun b => match b with 98 :: r => Ok (66 :: r) | _ => Throw EGeneral end),
    [(str "DecodeParms", OArr [ONull; ODict [(str "Colors", OInt 3)]; ONull]);
     (str "Filter", OArr [OName (str "ASCIIHexDecode"); OName (str "ASCII85Decode"); OName (str "FlateDecode")])],
    [(str "ASCIIHexDecode", []); (str "ASCII85Decode", [(str "Colors", OInt 3)]); (str "FlateDecode", [])].
  split; [|split; [|reflexivity]].
  - eapply hf_array; [reflexivity|reflexivity|]. cbn [map snd]. constructor; [right; split; reflexivity|]. constructor; [left; reflexivity|].
    constructor; [right; split; reflexivity|constructor].
  - apply lay_more with (inner := str "@W,e&~>").
    { apply (eb_asciihex _ [] (str "@W,e&~>") (str "40 572c65267e3e") []); [|reflexivity].
      assert (D : forall n, n < 10 -> hex_digit (48 + n) n) by (intros n Hn; apply (hd_dec n); exact Hn).
      assert (L : forall n, 10 <= n < 16 -> hex_digit (87 + n) n) by (intros n Hn; apply hd_lower; exact Hn).
      apply (ht_pair 52 [] 48 4 0); [apply (D 4); lia|constructor|apply (D 0); lia|]. apply ht_white; [vm_compute; tauto|].
      apply (ht_pair 53 [] 55 5 7); [apply (D 5); lia|constructor|apply (D 7); lia|].
      apply (ht_pair 50 [] 99 2 12); [apply (D 2); lia|constructor|apply (L 12); lia|].
      apply (ht_pair 54 [] 53 6 5); [apply (D 6); lia|constructor|apply (D 5); lia|].
      apply (ht_pair 50 [] 54 2 6); [apply (D 2); lia|constructor|apply (D 6); lia|].
      apply (ht_pair 55 [] 101 7 14); [apply (D 7); lia|constructor|apply (L 14); lia|].
      apply (ht_pair 51 [] 101 3 14); [apply (D 3); lia|constructor|apply (L 14); lia|]. constructor. }
    apply lay_more with (inner := str "body").
    { apply (eb_ascii85 _ _ (str "body") (str "@W,e&") []).
      apply (a85_group 31 54 11 68 5 98 111 100 121 [] []); [unfold byte4; lia|vm_compute; repeat split; reflexivity|constructor]. }
    apply lay_more with (inner := str "Body"); [|constructor]. apply eb_flate; [left; reflexivity|reflexivity].
Qed.

(** The filters of a list are applied in the order of decoding when encoding as well, instead of backwards: with two filters that
    both undo themselves the data cannot be read back. *)
Theorem C32_filter_order_refuted : exists deflate inflate dct_encode dct_decode d b e,
  undoes deflate inflate /\ (forall p, undoes (dct_encode p) (dct_decode p)) /\
  filter_list d [str "DCTDecode"; str "FlateDecode"] /\ plain_parameters d 2 /\
  forall jpx_decode encrypt decrypt,
  get_encoded deflate inflate dct_encode dct_decode jpx_decode encrypt decrypt false false (set_body (loaded d false []) true b) = Ok e /\
  get_body inflate dct_decode jpx_decode decrypt false (loaded d false e) <> Ok b.
Proof.
  exists (fun b => Ok (1 :: b)), (fun b => match b with 1 :: r => Ok r | _ => Throw EGeneral end),
         (fun _ b => Ok (2 :: b)), (fun _ b => match b with 2 :: r => Ok r | _ => Throw EGeneral end),
         [(str "Filter", OArr [OName (str "DCTDecode"); OName (str "FlateDecode")])], [7], [1; 2; 7].
  split; [intros b e H; injection H as <-; reflexivity|]. split; [intros p b e H; injection H as <-; reflexivity|].
  split; [apply fl_array; reflexivity|]. split; [left; reflexivity|].
  intros jpx enc dec. split; [reflexivity|]. vm_compute. discriminate.
Qed.

(** Predictor parameters are not used for encoding, though they are for decoding: for every zlib, the body of such a stream that is
    set and written is read back as something else. *)
Theorem C32_predictor_refuted : exists d b, filter_list d [str "FlateDecode"] /\
  forall deflate inflate dct_encode dct_decode jpx_decode encrypt decrypt e, undoes deflate inflate -> deflate b = Ok e ->
  get_encoded deflate inflate dct_encode dct_decode jpx_decode encrypt decrypt false false (set_body (loaded d false []) true b) = Ok e /\
  exists b', get_body inflate dct_decode jpx_decode decrypt false (loaded d false e) = Ok b' /\ b' <> b.
Proof.
  exists [(str "DecodeParms", ODict [(str "Predictor", OInt 12)]); (str "Filter", OName (str "FlateDecode"))], [2; 7; 0; 9].
  split; [apply fl_name; reflexivity|]. intros deflate inflate d1 d2 d3 enc dec e Hz He.
  split; [unfold get_encoded; cbn; rewrite He; reflexivity|]. exists [7; 9]. split; [|discriminate].
  unfold get_body. cbn. unfold flate_decode. rewrite (Hz _ _ He). vm_compute. reflexivity.
Qed.

(** In an encrypted file data with a list of filters is written without encryption, and deciphered when it is read. *)
Theorem C32_encrypted_list_refuted : exists deflate inflate encrypt decrypt d b e,
  undoes deflate inflate /\ (forall h, undoes (encrypt h) (decrypt h)) /\ filter_list d [str "FlateDecode"] /\ plain_parameters d 1 /\
  forall dct_encode dct_decode jpx_decode,
  get_encoded deflate inflate dct_encode dct_decode jpx_decode encrypt decrypt true false (set_body (loaded d false []) true b) = Ok e /\
  get_body inflate dct_decode jpx_decode decrypt true (loaded d false e) <> Ok b.
Proof.
  exists (fun b => Ok (1 :: b)), (fun b => match b with 1 :: r => Ok r | _ => Throw EGeneral end),
         (fun _ b => Ok (map (fun x => N.lxor x 255) b)), (fun _ b => Ok (map (fun x => N.lxor x 255) b)),
         [(str "Filter", OArr [OName (str "FlateDecode")])], [7], [1; 7].
  split; [intros b e H; injection H as <-; reflexivity|].
  split.
  { intros h b e H. injection H as <-. f_equal. rewrite map_map. rewrite <- (map_id b) at 2. apply map_ext. intros x. rewrite N.lxor_assoc, N.lxor_nilpotent. apply N.lxor_0_r. }
  split; [apply fl_array; reflexivity|]. split; [left; reflexivity|].
  intros d1 d2 d3. split; [reflexivity|]. vm_compute. discriminate.
Qed.

(** A Crypt filter in a list: reading skips it, writing a changed body always fails. *)
Theorem C32_crypt_in_list_refuted : forall deflate inflate dct_encode dct_decode jpx_decode encrypt decrypt s ns b,
  sm_find (str "Filter") (header s) = Some (OArr (map OName (str "Crypt" :: ns))) -> sm_find (str "DecodeParms") (header s) = None ->
  get_encoded deflate inflate dct_encode dct_decode jpx_decode encrypt decrypt false false (set_body s true b) = Throw EGeneral.
Proof.
  intros deflate inflate d1 d2 d3 enc dec s ns b Hf Hp. unfold get_encoded. cbn [set_body dirty decoded]. rewrite orb_true_r. cbn [negb andb orb].
  unfold encode_changed. unfold get_body. cbn [set_body decoded header rbind]. rewrite (contains_some _ _ _ Hf). cbn [negb]. unfold find_obj. rewrite Hf. cbn [rbind].
  rewrite map_names. rewrite (contains_none _ _ Hp). cbn [rbind encode_all]. unfold encrypt_body. cbn. rewrite orb_true_r. reflexivity.
Qed.

(** An unchanged stream with its own Crypt filter is written with the filter for all streams, and read back with its own. *)
Theorem C32_crypt_unchanged_refuted : exists encrypt decrypt d data b e,
  (forall h, undoes (encrypt h) (decrypt h)) /\ filter_list d [str "Crypt"] /\
  forall deflate inflate dct_encode dct_decode jpx_decode,
  get_body inflate dct_decode jpx_decode decrypt true (loaded d false data) = Ok b /\
  get_encoded deflate inflate dct_encode dct_decode jpx_decode encrypt decrypt true false (loaded d false data) = Ok e /\
  get_body inflate dct_decode jpx_decode decrypt true (loaded d false e) <> Ok b.
Proof.
  exists (fun h b => match h with None => Ok (map (fun x => N.lxor x 255) b) | Some _ => Ok b end),
         (fun h b => match h with None => Ok (map (fun x => N.lxor x 255) b) | Some _ => Ok b end),
         [(str "DecodeParms", ODict [(str "Name", OName (str "Identity"))]); (str "Filter", OName (str "Crypt"))], [7], [7], [248].
  split.
  { intros [h|] b e H; injection H as <-; [reflexivity|]. f_equal. rewrite map_map. rewrite <- (map_id b) at 2. apply map_ext. intros x. rewrite N.lxor_assoc, N.lxor_nilpotent. apply N.lxor_0_r. }
  split; [apply fl_name; reflexivity|]. intros deflate inflate d1 d2 d3. split; [reflexivity|]. split; [reflexivity|]. vm_compute. discriminate.
Qed.

(** A list of parameters that is shorter than the list of filters is read past its end. *)
Theorem C32_short_parameters_refuted : forall inflate dct_decode jpx_decode decrypt data, exists d,
  filter_list d [str "FlateDecode"] /\ get_body inflate dct_decode jpx_decode decrypt false (loaded d false data) = Undef.
Proof.
  intros inflate d1 d2 dec data. exists [(str "DecodeParms", OArr []); (str "Filter", OArr [OName (str "FlateDecode")])].
  split; [apply fl_array; reflexivity|reflexivity].
Qed.

(** The hypotheses are met by a list of three filters, one with parameters. *)
Example C32_case : exists deflate inflate encrypt decrypt d e,
  undoes deflate inflate /\ (forall h : option bytes, undoes (encrypt h) (decrypt h)) /\
  filter_list d [str "FlateDecode"; str "FlateDecode"; str "FlateDecode"] /\ plain_parameters d 3 /\
  get_encoded deflate inflate (fun _ => deflate) (fun _ => inflate) (fun _ => inflate) encrypt decrypt false true (set_body (loaded d false [1; 2]) true (str "body")) = Ok e /\
  e = 9 :: 9 :: 9 :: str "body".
Proof.
  exists (fun b => Ok (9 :: b)), (fun b => match b with 9 :: r => Ok r | _ => Throw EGeneral end), (fun _ b => Ok b), (fun _ b => Ok b),
    [(str "DecodeParms", OArr [ONull; ODict [(str "Predictor", OInt 1)]; ONull]); (str "Filter", OArr [OName (str "FlateDecode"); OName (str "FlateDecode"); OName (str "FlateDecode")])].
  eexists. split; [intros b e H; injection H as <-; reflexivity|]. split; [intros h b e H; injection H as <-; reflexivity|].
  split; [apply fl_array; reflexivity|]. split; [|split; [vm_compute; reflexivity|reflexivity]].
  right. right. eexists. split; [reflexivity|]. split; [cbn; lia|]. 
  apply Forall_cons; [left; reflexivity|]. apply Forall_cons; [right; eexists; split; [reflexivity|right; reflexivity]|].
  apply Forall_cons; [left; reflexivity|constructor].
Qed.

Print Assumptions C32_body_roundtrip_partial.
Print Assumptions C32_set_body_partial.
Print Assumptions C32_unchanged_partial.
Print Assumptions C32_data_kept.
Print Assumptions C32_reads_partial.
Print Assumptions C32_other_filters_refuted.
Print Assumptions C32_filter_order_refuted.
Print Assumptions C32_predictor_refuted.
Print Assumptions C32_encrypted_list_refuted.
Print Assumptions C32_crypt_in_list_refuted.
Print Assumptions C32_crypt_unchanged_refuted.
Print Assumptions C32_short_parameters_refuted.

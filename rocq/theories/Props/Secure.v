(** C60: encrypted documents that are saved, and copies between documents. *)
From Coq Require Import List NArith ZArith Bool Lia String.
From Coq Require Import List.
From Verif.Model Require Import Base SMap Object Digest Encryption StreamBody Secure.
From Verif.Spec Require Import Encryption StreamBody Secure.
From Verif.Proof Require Import Tac StreamBody Secure.
Import ListNotations.
Local Open Scope N_scope.

(** Strings at any depth of any object survive saving: whatever the encryption of the source is, whether it is kept, was added or was
    removed, and whether the object is renumbered.  In the new file they are enciphered with the key that the standard prescribes
    for the new number. *)
Theorem C60_strings_saved : forall deflate inflate dct_encode dct_decode jpx_decode cbc_encrypt cbc_decrypt from to num gen num' gen' exempt touched o v,
  not_stream o -> shown inflate dct_decode jpx_decode cbc_decrypt from num gen exempt o = Ok v ->
  ordinary to num' gen' -> Forall short (strings_of v) ->
  exists w, save_object deflate inflate dct_encode dct_decode jpx_decode cbc_encrypt cbc_decrypt from to num gen num' gen' exempt touched o = Ok w /\
    shown inflate dct_decode jpx_decode cbc_decrypt to num' gen' exempt w = Ok v /\
    kept_as to num' gen' exempt (strings_of v) (strings_of w).
Proof. intros. now apply save_strings. Qed.

(** They survive being copied into another document, encrypted or not, unless the object came out of an object stream. *)
Theorem C60_strings_copied_partial : forall deflate inflate dct_encode dct_decode jpx_decode cbc_encrypt cbc_decrypt from to num gen num' gen' touched o v,
  not_stream o -> shown inflate dct_decode jpx_decode cbc_decrypt from num gen false o = Ok v ->
  ordinary to num' gen' -> Forall short (strings_of v) ->
  exists w, copy_object deflate inflate dct_encode dct_decode jpx_decode cbc_encrypt cbc_decrypt from to num gen num' gen' false touched o = Ok w /\
    shown inflate dct_decode jpx_decode cbc_decrypt to num' gen' false w = Ok v /\
    kept_as to num' gen' false (strings_of v) (strings_of w).
Proof. intros. now apply copy_strings. Qed.

(** A saved stream shows the same dictionary and body as before when its body had been read (adding and removing encryption reads all
    of them), or when it keeps its number and the encryption is the same.  Any filters, known to the library or not, except Crypt. *)
Theorem C60_streams_saved_partial : forall deflate inflate dct_encode dct_decode jpx_decode cbc_encrypt cbc_decrypt from to num gen num' gen' exempt touched h d ns w,
  filter_list h ns -> ~ In (str "Crypt") ns -> ordinary to num' gen' -> notes_removal from to ->
  touched = true \/ (v_crypt from = v_crypt to /\ num = num' /\ gen = gen') ->
  save_object deflate inflate dct_encode dct_decode jpx_decode cbc_encrypt cbc_decrypt from to num gen num' gen' exempt touched (OStream h d) = Ok w ->
  shown inflate dct_decode jpx_decode cbc_decrypt to num' gen' exempt w = shown inflate dct_decode jpx_decode cbc_decrypt from num gen exempt (OStream h d).
Proof. intros. eapply save_streams; eauto. Qed.

(** Saving does not fail for a stream that can be read and whose dictionary has no strings. *)
Theorem C60_streams_save_partial : forall deflate inflate dct_encode dct_decode jpx_decode cbc_encrypt cbc_decrypt from to num gen num' gen' exempt touched h d ns v,
  filter_list h ns -> ~ In (str "Crypt") ns -> strings_of (ODict h) = [] -> short d -> ordinary from num gen -> ordinary to num' gen' ->
  shown inflate dct_decode jpx_decode cbc_decrypt from num gen exempt (OStream h d) = Ok v ->
  exists w, save_object deflate inflate dct_encode dct_decode jpx_decode cbc_encrypt cbc_decrypt from to num gen num' gen' exempt touched (OStream h d) = Ok w.
Proof. intros. eapply save_streams_total; eauto. Qed.

(** A stream whose body was read before it was copied into another document shows the same there. *)
Theorem C60_streams_copied_partial : forall deflate inflate dct_encode dct_decode jpx_decode cbc_encrypt cbc_decrypt from to num gen num' gen' h d ns w,
  undoes deflate inflate -> filter_list h ns -> sm_find (str "Filter") h <> Some ONull -> ~ In (str "DCTDecode") ns ->
  plain_parameters h (List.length ns) -> (is_array h -> v_crypt to = None) -> ordinary to num' gen' ->
  copy_object deflate inflate dct_encode dct_decode jpx_decode cbc_encrypt cbc_decrypt from to num gen num' gen' false true (OStream h d) = Ok w ->
  shown inflate dct_decode jpx_decode cbc_decrypt to num' gen' false w = shown inflate dct_decode jpx_decode cbc_decrypt from num gen false (OStream h d).
Proof. intros. eapply copy_streams; eauto. Qed.

(** A document that has a stream with a string in its dictionary cannot be saved encrypted, whatever it was before. *)
Theorem C60_stream_strings_refuted : forall deflate inflate dct_encode dct_decode jpx_decode cbc_encrypt cbc_decrypt from to num gen num' gen' exempt touched h d w,
  v_crypt to <> None -> strings_of (ODict h) <> [] ->
  save_object deflate inflate dct_encode dct_decode jpx_decode cbc_encrypt cbc_decrypt from to num gen num' gen' exempt touched (OStream h d) <> Ok w.
Proof.
  intros deflate inflate d1 d2 d3 enc dec from to num gen num' gen' ex touched h d w Hto Hs H.
  unfold save_object in H. apply rbind_ok in H. destruct H as (m & Em & H). apply rbind_ok in H. destruct H as (m' & Em' & H).
  cbn [open_object] in Em. apply rbind_ok in Em. destruct Em as (v & Ev & Em). apply ok_inj in Em. subst m.
  assert (Hm : exists s, m' = HStream true false s /\ header s = v).
  { destruct touched; [|apply ok_inj in Em'; subst m'; eexists; split; reflexivity]. cbn [touch_object] in Em'. apply rbind_ok in Em'. destruct Em' as (s & Es & Em').
    apply ok_inj in Em'. subst m'. exists s. split; [reflexivity|]. now destruct (read_keeps _ _ _ _ _ _ _ _ _ _ _ Es) as (b & x & _ & _ & Hh & _). }
  destruct Hm as (s & -> & Hh). cbn [clone_object write_object andb orb] in H. apply rbind_ok in H. destruct H as (hw & Ehw & _). rewrite Hh in Ehw.
  destruct (header_written enc dec to num' gen' ex v hw Ehw) as ([Hc|Hc] & _); [contradiction|].
  assert (Hl := entries_count _ _ _ Ev). rewrite Hc in Hl. apply Hs. apply length_zero_iff_nil. symmetry. exact Hl.
Qed.

(** the key of an example *)
Definition file : vault :=
  {| v_crypt := Some {| c_dict := [(str "V", OInt 2)]; c_place := Some (9, 0); c_key := Some (nrange 1 16); c_empty_password := Ok None;
                        c_compressed := fun _ _ => Some false |}; v_dirty := false; v_random := fun _ _ => [] |}.
Definition open_file : vault := {| v_crypt := None; v_dirty := false; v_random := fun _ _ => [] |}.
Definition data_of (num : N) : bytes := rc4 (data_key (nrange 1 16) num 0 false) (str "text").
Lemma file_ordinary : forall num, num <> 0 -> num <> 9 -> ordinary file num 0.
Proof.
  intros num H0 H9. exists (nrange 1 16). split; [reflexivity|]. split; [reflexivity|]. split; [intros H; injection H; intros E; now apply H9|]. split; [exact H0|].
  split; [eexists; reflexivity|]. split; [eexists; reflexivity|]. intros name H. discriminate.
Qed.

(** An unread stream that gets another number when its document is saved (the default, when a number was free) shows something else:
    the data stays enciphered for the old number. *)
Theorem C60_renumbered_refuted : exists h d b b', filter_list h [] /\ ordinary file 5 0 /\ ordinary file 4 0 /\ b' <> b /\
  forall deflate inflate dct_encode dct_decode jpx_decode cbc_encrypt cbc_decrypt,
  shown inflate dct_decode jpx_decode cbc_decrypt file 5 0 false (OStream h d) = Ok (OStream h b) /\
  exists w, save_object deflate inflate dct_encode dct_decode jpx_decode cbc_encrypt cbc_decrypt file file 5 0 4 0 false false (OStream h d) = Ok w /\
    shown inflate dct_decode jpx_decode cbc_decrypt file 4 0 false w = Ok (OStream h b').
Proof.
  exists [], (data_of 5), (str "text"), (rc4 (data_key (nrange 1 16) 4 0 false) (data_of 5)).
  split; [now apply fl_none|]. split; [apply file_ordinary; discriminate|]. split; [apply file_ordinary; discriminate|]. split; [vm_compute; discriminate|].
  intros deflate inflate d1 d2 d3 enc dec. split; [vm_compute; reflexivity|]. exists (OStream [] (data_of 5)). split; vm_compute; reflexivity.
Qed.
(** In general: saved from [num] to [num'], the body is the old one enciphered for the old and again for the new number. *)
Theorem C60_renumbered_value : forall deflate inflate dct_encode dct_decode jpx_decode cbc_encrypt cbc_decrypt from to c key num gen num' gen' h d b w,
  v_crypt from = Some c -> v_crypt to = Some c -> rc4_object c num gen key -> rc4_object c num' gen' key ->
  sm_find (str "Filter") h = None -> short d ->
  shown inflate dct_decode jpx_decode cbc_decrypt from num gen false (OStream h d) = Ok (OStream h b) ->
  save_object deflate inflate dct_encode dct_decode jpx_decode cbc_encrypt cbc_decrypt from to num gen num' gen' false false (OStream h d) = Ok w ->
  shown inflate dct_decode jpx_decode cbc_decrypt to num' gen' false w =
    Ok (OStream h (rc4 (data_key key num' gen' false) (rc4 (data_key key num gen false) b))).
Proof.
  intros deflate inflate d1 d2 d3 enc dec from to c key num gen num' gen' h d b w Hfrom Hto Hk Hk' Hf Hd Hs H.
  unfold shown in Hs. apply rbind_ok in Hs. destruct Hs as (m & Em & Hs). unfold save_object in H. rewrite Em in H. cbn [rbind] in H.
  cbn [open_object] in Em. apply rbind_ok in Em. destruct Em as (v & Ev & Em). apply ok_inj in Em. subst m. cbn iota beta in Hs. apply rbind_ok in Hs. destruct Hs as (b0 & Eb & Hs).
  cbn [loaded header] in Hs. apply ok_inj in Hs. injection Hs as -> ->. cbn [clone_object write_object loaded header exempt andb orb] in H. fold (loaded h false d) in H, Eb.
  apply rbind_ok in H. destruct H as (hw & Ehw & H). apply rbind_ok in H. destruct H as (e & Ee & H). apply ok_inj in H. subst w.
  destruct (header_written enc dec to num' gen' false h hw Ehw) as (_ & -> & Eo). unfold shown. cbn [open_object]. rewrite Eo. cbn [rbind loaded header]. fold (loaded h false e).
  assert (Hfl : filter_list h []) by now apply fl_none.
  assert (Hplain : forall f n g x, v_crypt f = Some c -> get_decrypted (open_data dec f n g) (secured f) (loaded h false x) = open_data dec f n g None x).
  { intros f n g x Hc. rewrite (decrypted_plain _ _ h [] false x Hfl ltac:(now intros [])). unfold secured. rewrite Hc. reflexivity. }
  assert (Hbody : forall f n g x, v_crypt f = Some c -> get_body inflate d2 d3 (open_data dec f n g) (secured f) (loaded h false x) = open_data dec f n g None x).
  { intros f n g x Hc. rewrite <- (Hplain f n g x Hc). unfold get_body. cbn [loaded decoded header]. rewrite (contains_none _ _ Hf). reflexivity. }
  rewrite (Hbody to) by exact Hto. rewrite (Hbody from) in Eb by exact Hfrom.
  assert (Hopen : forall n g x f, v_crypt f = Some c -> rc4_object c n g key -> short x -> open_data dec f n g None x = Ok (rc4 (data_key key n g false) x)).
  { intros n g x f Hc Ho Hx. unfold open_data. rewrite Hc. destruct (algorithm_known c n g key Ho (str "StmF")) as (a & Ea & Ha); [now left|].
    unfold decrypt_stream, decrypt_with. rewrite Ea. cbn [rbind]. eapply data_opened; eassumption. }
  rewrite (Hopen _ _ _ _ Hfrom Hk Hd) in Eb. apply ok_inj in Eb.
  assert (He : e = d).
  { unfold get_encoded in Ee. assert (Hse : secured to = true) by (unfold secured; now rewrite Hto). rewrite Hse in Ee at 1. cbn [loaded negb andb dirty decoded raw] in Ee. fold (loaded h false d) in Ee.
    apply rbind_ok in Ee. destruct Ee as (x & Ex & Ee). rewrite (Hplain to) in Ex by exact Hto. rewrite (Hopen _ _ _ _ Hto Hk' Hd) in Ex. apply ok_inj in Ex.
    unfold encrypt_body in Ee. rewrite Hse in Ee. cbn [loaded exempt negb orb] in Ee. unfold close_data in Ee. rewrite Hto in Ee.
    destruct (algorithm_known c num' gen' key Hk' (str "StmF")) as (a & Ea & Ha); [now left|]. unfold encrypt_stream, encrypt_with in Ee. rewrite Ea in Ee. cbn [rbind] in Ee.
    eapply data_undone in Ee; [|eassumption|assumption]. destruct Ee as (Ee & _). rewrite Ee, <- Ex. apply Proof.Encryption.rc4_twice. }
  subst e. rewrite (Hopen _ _ _ _ Hto Hk' Hd). cbn [rbind]. rewrite <- Eb, Proof.Encryption.rc4_twice. reflexivity.
  Unshelve. all: assumption.
Qed.

(** A stream copied, unread, out of an encrypted document: the other document gets the enciphered bytes. *)
Theorem C60_copied_out_refuted : exists d b, ordinary file 5 0 /\ d <> b /\
  forall deflate inflate dct_encode dct_decode jpx_decode cbc_encrypt cbc_decrypt,
  shown inflate dct_decode jpx_decode cbc_decrypt file 5 0 false (OStream [] d) = Ok (OStream [] b) /\
  exists w, copy_object deflate inflate dct_encode dct_decode jpx_decode cbc_encrypt cbc_decrypt file open_file 5 0 3 0 false false (OStream [] d) = Ok w /\
    shown inflate dct_decode jpx_decode cbc_decrypt open_file 3 0 false w = Ok (OStream [] d).
Proof.
  exists (data_of 5), (str "text"). split; [apply file_ordinary; discriminate|]. split; [vm_compute; discriminate|].
  intros deflate inflate d1 d2 d3 enc dec. split; [vm_compute; reflexivity|]. exists (OStream [] (data_of 5)). split; vm_compute; reflexivity.
Qed.
(** A stream copied, unread, into an encrypted document: its bytes are in the file as they are, for everybody to read, and the document
    shows something else. *)
Theorem C60_copied_in_refuted : exists b b', ordinary file 3 0 /\ b' <> b /\
  forall deflate inflate dct_encode dct_decode jpx_decode cbc_encrypt cbc_decrypt,
  shown inflate dct_decode jpx_decode cbc_decrypt open_file 5 0 false (OStream [] b) = Ok (OStream [] b) /\
  copy_object deflate inflate dct_encode dct_decode jpx_decode cbc_encrypt cbc_decrypt open_file file 5 0 3 0 false false (OStream [] b) = Ok (OStream [] b) /\
  shown inflate dct_decode jpx_decode cbc_decrypt file 3 0 false (OStream [] b) = Ok (OStream [] b').
Proof.
  exists (str "text"), (data_of 3). split; [apply file_ordinary; discriminate|]. split; [vm_compute; discriminate|].
  intros deflate inflate d1 d2 d3 enc dec. split; [reflexivity|]. split; vm_compute; reflexivity.
Qed.
(** So are the strings of every object that came out of an object stream. *)
Theorem C60_copied_from_object_stream_refuted : forall deflate inflate dct_encode dct_decode jpx_decode cbc_encrypt cbc_decrypt from to num gen num' gen' touched o,
  not_stream o -> copy_object deflate inflate dct_encode dct_decode jpx_decode cbc_encrypt cbc_decrypt from to num gen num' gen' true touched o = Ok o.
Proof.
  intros deflate inflate d1 d2 d3 enc dec from to num gen num' gen' touched o Ho. unfold copy_object.
  assert (E : open_object dec from num gen true o = Ok (HObject true o)).
  { unfold open_object. assert (Es : map_strings (open_string dec from num gen true) o = Ok o) by (apply strings_same; intros s _; unfold open_string; now destruct (v_crypt from)).
    destruct o; try contradiction; rewrite Es; reflexivity. }
  rewrite E. cbn [rbind]. destruct touched; cbn [touch_object rbind clone_object dirty_object write_object]; apply strings_same; intros s _; unfold close_string; now destruct (v_crypt to).
Qed.
Theorem C60_copied_string_refuted : exists o v, ordinary file 3 0 /\ v <> o /\
  forall deflate inflate dct_encode dct_decode jpx_decode cbc_encrypt cbc_decrypt,
  shown inflate dct_decode jpx_decode cbc_decrypt open_file 5 0 true o = Ok o /\
  copy_object deflate inflate dct_encode dct_decode jpx_decode cbc_encrypt cbc_decrypt open_file file 5 0 3 0 true false o = Ok o /\
  shown inflate dct_decode jpx_decode cbc_decrypt file 3 0 false o = Ok v.
Proof.
  exists (OLit (str "text")), (OLit (data_of 3)). split; [apply file_ordinary; discriminate|]. split; [vm_compute; discriminate|].
  intros deflate inflate d1 d2 d3 enc dec. split; [reflexivity|]. split; vm_compute; reflexivity.
Qed.

(** The premises hold of an annotation that moves from 5 to 4 and of a stream that was read. *)
Example C60_case : forall deflate inflate dct_encode dct_decode jpx_decode cbc_encrypt cbc_decrypt,
  let o := ODict [(str "Contents", OLit (data_of 5)); (str "T", OArr [OHex (data_of 5); OInt 3])] in
  let v := ODict [(str "Contents", OLit (str "text")); (str "T", OArr [OHex (str "text"); OInt 3])] in
  let w := ODict [(str "Contents", OLit (data_of 4)); (str "T", OArr [OHex (data_of 4); OInt 3])] in
  shown inflate dct_decode jpx_decode cbc_decrypt file 5 0 false o = Ok v /\ ordinary file 4 0 /\ Forall short (strings_of v) /\
  save_object deflate inflate dct_encode dct_decode jpx_decode cbc_encrypt cbc_decrypt file file 5 0 4 0 false false o = Ok w /\
  save_object deflate inflate dct_encode dct_decode jpx_decode cbc_encrypt cbc_decrypt file file 5 0 4 0 false true (OStream [] (data_of 5)) = Ok (OStream [] (data_of 4)) /\
  copy_object deflate inflate dct_encode dct_decode jpx_decode cbc_encrypt cbc_decrypt file open_file 5 0 4 0 false true (OStream [] (data_of 5)) = Ok (OStream [] (str "text")).
Proof.
  intros deflate inflate d1 d2 d3 enc dec. cbv zeta. split; [vm_compute; reflexivity|]. split; [apply file_ordinary; discriminate|].
  split; [apply Forall_forall; intros s Hs; cbn in Hs; destruct Hs as [<-|[<-|[]]]; vm_compute; reflexivity|]. split; [vm_compute; reflexivity|]. split; vm_compute; reflexivity.
Qed.

Print Assumptions C60_strings_saved.
Print Assumptions C60_strings_copied_partial.
Print Assumptions C60_streams_saved_partial.
Print Assumptions C60_streams_save_partial.
Print Assumptions C60_streams_copied_partial.
Print Assumptions C60_stream_strings_refuted.
Print Assumptions C60_renumbered_refuted.
Print Assumptions C60_renumbered_value.
Print Assumptions C60_copied_out_refuted.
Print Assumptions C60_copied_in_refuted.
Print Assumptions C60_copied_from_object_stream_refuted.
Print Assumptions C60_copied_string_refuted.

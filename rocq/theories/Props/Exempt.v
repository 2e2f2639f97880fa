(** C72: which parts of an encrypted document are left as they are. *)
From Coq Require Import List NArith ZArith Bool Lia String.
From Coq Require Import List.
From Verif.Model Require Import Base SMap Object Digest Encryption Exempt.
From Verif.Spec Require Import Exempt.
From Verif.Proof Require Import Tac Exempt.
Import ListNotations.
Local Open Scope N_scope.

(** Every file: a string or stream that the library does not decipher is one that the standard leaves as it is. *)
Theorem C72_nothing_else : forall fuel f st p v, initialize fuel f closed = (st, Ok tt) -> part f p v -> has_data v ->
  exempt f st p = true -> left_plain f p.
Proof. exact marked_plain. Qed.

(** Files of the usual layout: the encryption is found, and every string is shown as it is stored when the standard says so, and
    deciphered for the number of its object otherwise. *)
Theorem C72_strings_partial : forall cbc_decrypt fuel f st p v s, usual_layout f -> initialize fuel f closed = (st, Ok tt) ->
  part f p v -> text v s ->
  (is_encrypted st = true <-> exists t e, trailer f 0 t /\ value_of f t (str "Encrypt") e /\ snd e <> ONull) /\
  (left_plain f p -> string_value cbc_decrypt f st p s = Ok s) /\
  (~ left_plain f p -> is_encrypted st = true -> forall n g q, p = (PObject n g, q) ->
     string_value cbc_decrypt f st p s = decrypt_string cbc_decrypt (f_crypt f) s n g).
Proof.
  intros dec fuel f st p v s Hu Hi Hp Ht. split; [|split].
  - destruct (all_marks _ _ _ Hi) as (_ & _ & Hd & _). unfold is_encrypted. split.
    + destruct (st_dictionary st) as [u|] eqn:E; [|discriminate]. intros Hn. destruct (proj1 (Hd u) eq_refl) as (t & sp & o & H1 & H2 & H3).
      destruct (ref_dec o) as [(n & g & ->)|Hr].
      * exists t, ((PObject n g, []), u). split; [exact H1|]. split; [|cbn [snd]; intros ->; discriminate].
        exists (sp, ORef n g). split; [exact H2|]. eapply points_ref; [exact H3|]. apply points_self. destruct Hu as (L1 & _). exact (L1 _ _ _ _ _ H1 H2 H3).
      * assert (u = o) by (destruct o; try exact H3; destruct Hr; eexists _, _; reflexivity). subst u. exists t, (sp, o). split; [exact H1|].
        split; [exists (sp, o); split; [exact H2|apply points_self; exact Hr]|cbn [snd]; intros ->; discriminate].
    + intros (t & e & H1 & (en & H2 & H3) & H4). destruct en as [sp o].
      assert (Hs : st_dictionary st = Some (snd e)).
      { apply Hd. exists t, sp, o. split; [exact H1|]. split; [exact H2|]. inversion H3; subst.
        - destruct o; try reflexivity. match goal with H : ~ is_ref _ |- _ => destruct H; eexists _, _; reflexivity end.
        - destruct Hu as (L1 & _). match goal with H : f_object f n g = Ok ?u |- _ => assert (Hnu := L1 _ _ _ _ _ H1 H2 H) end.
          match goal with H : points f (_, ?u) e |- _ => inversion H; subst end; [assumption|]. destruct Hnu. eexists _, _. reflexivity. }
      rewrite Hs. destruct (snd e); try reflexivity. contradiction.
  - intros Hl. unfold string_value. rewrite (plain_marked _ _ _ _ Hu Hi Hl), orb_true_r. reflexivity.
  - intros Hl He n g q ->. unfold string_value. rewrite He. cbn [negb orb]. destruct (exempt f st (PObject n g, q)) eqn:E; [|reflexivity].
    destruct Hl. eapply C72_nothing_else; [exact Hi|exact Hp|left; exists s; exact Ht|exact E].
Qed.

(** The same for the data of streams. *)
Theorem C72_streams_partial : forall cbc_decrypt fuel f st n g d s, usual_layout f -> initialize fuel f closed = (st, Ok tt) ->
  f_object f n g = Ok (OStream d s) ->
  (left_plain f (PObject n g, []) -> stream_data cbc_decrypt f st n g s = Ok s) /\
  (~ left_plain f (PObject n g, []) -> is_encrypted st = true -> stream_data cbc_decrypt f st n g s = decrypt_stream cbc_decrypt (f_crypt f) s n g).
Proof.
  intros dec fuel f st n g d s Hu Hi Ho. split.
  - intros Hl. unfold stream_data. rewrite (plain_marked _ _ _ _ Hu Hi Hl). reflexivity.
  - intros Hl He. unfold stream_data. rewrite He. cbn [negb]. rewrite orb_false_r. destruct (exempt f st (PObject n g, [])) eqn:E; [|reflexivity].
    destruct Hl. eapply C72_nothing_else; [exact Hi| |right; exists d, s; reflexivity|exact E]. exists (OStream d s). split; [exact Ho|reflexivity].
Qed.

(** What the standard leaves as it is goes unchanged into a saved file, whatever was enciphered around it: signatures and the
    encryption dictionary survive. *)
Theorem C72_saved_partial : forall cbc_encrypt cbc_decrypt fuel f st p iv s, usual_layout f -> initialize fuel f closed = (st, Ok tt) ->
  left_plain f p -> string_saved cbc_encrypt cbc_decrypt f st p iv s = Ok s.
Proof.
  intros enc dec fuel f st p iv s Hu Hi Hl. unfold string_saved, string_value. rewrite (plain_marked _ _ _ _ Hu Hi Hl), orb_true_r. reflexivity.
Qed.

(** An orderly file is opened. *)
Theorem C72_opens_partial : forall fuel f, orderly f -> exists st, initialize (S fuel) f closed = (st, Ok tt).
Proof. exact orderly_opens. Qed.

(** A document with a signature field whose value is not a dictionary, such as null, cannot be opened, encrypted or not. *)
Theorem C72_unsigned_field_refuted : forall fuel f fs x l s v st, field_list f fs -> element fs x -> points f x l -> dictionary l ->
  value_of f l (str "FT") (s, OName (str "Sig")) -> value_of f l (str "V") v -> ~ dictionary v ->
  initialize fuel f closed <> (st, Ok tt).
Proof.
  intros fuel f fs x l s v st Hf Hx Hl Hd Hft Hv Hn Hi. destruct (all_marks _ _ _ Hi) as (_ & _ & _ & Hall). destruct (Hall _ _ Hf Hx) as (e & r & Er).
  destruct (contents_complete _ _ _ _ _ _ _ v _ Er Hl Hd Hft Hv) as (H & _). contradiction.
Qed.

(** Nor can one whose signature has its contents in a literal string, or anything else that is not a hexadecimal string. *)
Theorem C72_literal_contents_refuted : forall fuel f fs x l s v c st, field_list f fs -> element fs x -> points f x l -> dictionary l ->
  value_of f l (str "FT") (s, OName (str "Sig")) -> value_of f l (str "V") v -> value_of f v (str "Contents") c -> (forall b, snd c <> OHex b) ->
  initialize fuel f closed <> (st, Ok tt).
Proof.
  intros fuel f fs x l s v c st Hf Hx Hl Hd Hft Hv Hc Hn Hi. destruct (all_marks _ _ _ Hi) as (_ & _ & _ & Hall). destruct (Hall _ _ Hf Hx) as (e & r & Er).
  destruct (contents_complete _ _ _ _ _ _ _ c _ Er Hl Hd Hft Hv) as (_ & H). apply H in Hc. destruct Hc as [_ Hc]. destruct (snd c); try discriminate. now apply (Hn v0).
Qed.

(** A document that needs a password and has its catalog in an object stream cannot be opened: there is no moment at which the
    password could be given.  A second call then reports success, with no signature marked. *)
Theorem C72_password_refuted : forall fuel f b d rest m h u n g, f_sections f = (b, d) :: rest ->
  sm_find (str "Encrypt") d = Some (ORef m h) -> f_packed f m h = false -> f_object f m h = Ok u -> u <> ONull ->
  sm_find (str "Root") d = Some (ORef n g) -> f_packed f n g = true -> current_key (f_crypt f) = Throw EPassword ->
  exists st, initialize (S fuel) f closed = (st, Throw EPassword) /\ initialize (S fuel) f st = (st, Ok tt) /\
    forall p, exempt f st p = true -> born_exempt f (fst p) = true \/ inside (PObject m h, []) p \/
      (exists i, fst p = PSection i).
Proof.
  intros fuel f b d rest m h u n g Hs He Hp Hu Hn Hr Hpk Hk. unfold initialize. cbn [closed st_ready st_marks st_dictionary].
  set (st1 := {| st_ready := true; st_marks := [(PObject m h, [])]; st_dictionary := Some u |}).
  assert (E1 : exempt_dictionary f {| st_ready := true; st_marks := []; st_dictionary := None |} = (st1, Ok tt)).
  { unfold exempt_dictionary. rewrite Hs, He, Hp, Hu. reflexivity. }
  rewrite E1.
  destruct (streams_marks (f_sections f) 0 st1) as (R2 & D2 & M2). set (st2 := exempt_streams 0 (f_sections f) st1) in *.
  destruct (identifiers_marks (f_sections f) 0 st2) as (R3 & D3 & M3). set (st3 := exempt_identifiers 0 (f_sections f) st2) in *.
  assert (E3 : is_encrypted st3 = true). { unfold is_encrypted. rewrite D3, D2. cbn [st1 st_dictionary]. destruct u; try reflexivity. contradiction. }
  assert (Hff : form_fields (S fuel) (is_encrypted st3) f = Throw EPassword).
  { unfold form_fields. rewrite Hs, Hr, E3. cbn [follow snd existsb]. unfold fetch. rewrite Hpk, Hk. reflexivity. }
  unfold exempt_signatures. rewrite Hff. exists st3. split; [reflexivity|]. assert (Hrdy : st_ready st3 = true) by (rewrite R3, R2; reflexivity). split; [rewrite Hrdy; reflexivity|].
  intros p Hx. apply exempt_marks in Hx. destruct Hx as [Hx|(mk & Hm & Hin)]; [left; exact Hx|]. right. apply M3 in Hm. rewrite M2 in Hm.
  destruct Hm as [[[<-|[]]|(j & d' & _ & ->)]|(j & b' & d' & _ & _ & ->)]; [left; exact Hin| |]; right; destruct Hin as (r & ->); eexists; reflexivity.
Qed.

(** Signatures of fields below other fields are deciphered although they are not enciphered; so is an identifier that is an indirect
    object. *)
Definition h_trailer : dict := [(str "Encrypt", ORef 9 0); (str "ID", ORef 8 0); (str "Root", ORef 1 0)].
Definition h_form : dict := [(str "Fields", OArr [ORef 2 0])].
Definition h_root : dict := [(str "AcroForm", ODict h_form)].
Definition h_field : dict := [(str "FT", OName (str "Sig")); (str "Kids", OArr [ORef 3 0])].
Definition h_kid : dict := [(str "V", ORef 4 0)].
Definition h_signature : dict := [(str "Contents", OHex (str "text")); (str "Reason", OLit (str "text"))].
Definition h_crypt : crypt :=
  {| c_dict := [(str "V", OInt 2)]; c_place := Some (9, 0); c_key := Some (nrange 1 16); c_empty_password := Ok None;
     c_compressed := fun _ _ => Some false |}.
Definition hidden_signature : source :=
  {| f_sections := [(false, h_trailer)]; f_xref_streams := []; f_packed := fun _ _ => false;
     f_object := fun n _ => Ok match n with
       | 1 => ODict h_root
       | 2 => ODict h_field
       | 3 => ODict h_kid
       | 4 => ODict h_signature
       | 8 => OArr [OHex (str "text")]
       | 9 => ODict [(str "V", OInt 2)]
       | _ => ONull
       end;
     f_crypt := h_crypt |}.
Lemma opened_entry : forall f s d k o, sm_find k d = Some o -> ~ is_ref o -> value_of f (s, ODict d) k (child s (SKey k), o).
Proof. intros f s d k o H Hr. eexists. split; [exists d, o; split; [reflexivity|split; [exact H|reflexivity]]|]. apply points_self. exact Hr. Qed.
Lemma opened_ref : forall f s d k n g o, sm_find k d = Some (ORef n g) -> f_object f n g = Ok o -> ~ is_ref o -> value_of f (s, ODict d) k ((PObject n g, []), o).
Proof.
  intros f s d k n g o H Ho Hr. eexists. split; [exists d, (ORef n g); split; [reflexivity|split; [exact H|reflexivity]]|].
  eapply points_ref; [exact Ho|apply points_self; exact Hr].
Qed.
Ltac noref := let H := fresh in intros (? & ? & H); discriminate H.
Lemma h_fields : field_list hidden_signature (child (child (PObject 1 0, []) (SKey (str "AcroForm"))) (SKey (str "Fields")), OArr [ORef 2 0]).
Proof.
  exists ((PSection 0, []), ODict h_trailer), ((PObject 1 0, []), ODict h_root), (child (PObject 1 0, []) (SKey (str "AcroForm")), ODict h_form).
  split; [exists false, h_trailer; split; reflexivity|]. split; [apply opened_ref; [vm_compute; reflexivity|reflexivity|noref]|].
  split; (apply opened_entry; [vm_compute; reflexivity|noref]).
Qed.
Lemma h_top : field hidden_signature ((PObject 2 0, []), ODict h_field) (Some (str "Sig")).
Proof.
  eapply field_top; [exact h_fields|exists [ORef 2 0], 0%nat, (ORef 2 0); split; [reflexivity|split; reflexivity]| | |].
  - eapply points_ref; [reflexivity|apply points_self; noref].
  - eexists. reflexivity.
  - left. exists (child (PObject 2 0, []) (SKey (str "FT"))), (str "Sig"). split; [apply opened_entry; [vm_compute; reflexivity|noref]|reflexivity].
Qed.
Lemma h_below : field hidden_signature ((PObject 3 0, []), ODict h_kid) (Some (str "Sig")).
Proof.
  eapply field_kid; [exact h_top|apply (opened_entry _ _ _ _ (OArr [ORef 3 0])); [vm_compute; reflexivity|noref]|exists [ORef 3 0], 0%nat, (ORef 3 0); split; [reflexivity|split; reflexivity]| | |].
  - eapply points_ref; [reflexivity|apply points_self; noref].
  - eexists. reflexivity.
  - right. split; [|reflexivity]. intros e (d & o & H1 & H2 & _). cbn [snd] in H1. injection H1 as <-. vm_compute in H2. discriminate.
Qed.

Theorem C72_nested_field_refuted : exists f st p s, forall cbc_decrypt,
  initialize 3 f closed = (st, Ok tt) /\ part f p (OHex s) /\ left_plain f p /\ string_value cbc_decrypt f st p s <> Ok s.
Proof.
  exists hidden_signature, (fst (initialize 3 hidden_signature closed)), (PObject 4 0, [SKey (str "Contents")]), (str "text"). intros dec.
  split; [vm_compute; reflexivity|]. split; [|split].
  - exists (ODict h_signature). split; [reflexivity|]. exists h_signature, (OHex (str "text")). split; [left; reflexivity|]. split; [vm_compute; reflexivity|reflexivity].
  - eapply plain_signature with (c := ((PObject 4 0, [SKey (str "Contents")]), OHex (str "text"))); [|exists []; reflexivity].
    exists ((PObject 3 0, []), ODict h_kid), ((PObject 4 0, []), ODict h_signature), (str "text"). split; [exact h_below|].
    split; [apply opened_ref; [vm_compute; reflexivity|reflexivity|noref]|]. split; [apply (opened_entry _ (PObject 4 0, [])); [vm_compute; reflexivity|noref]|right; reflexivity].
  - intros H. vm_compute in H. discriminate.
Qed.

Theorem C72_indirect_identifier_refuted : exists f st p s, forall cbc_decrypt,
  initialize 3 f closed = (st, Ok tt) /\ part f p (OHex s) /\ left_plain f p /\ string_value cbc_decrypt f st p s <> Ok s.
Proof.
  exists hidden_signature, (fst (initialize 3 hidden_signature closed)), (PObject 8 0, [SIndex 0]), (str "text"). intros dec.
  split; [vm_compute; reflexivity|]. split; [|split].
  - exists (OArr [OHex (str "text")]). split; [reflexivity|]. exists [OHex (str "text")], (OHex (str "text")). split; [reflexivity|]. split; reflexivity.
  - eapply plain_identifier with (i := 0%nat) (t := ((PSection 0, []), ODict h_trailer)) (v := ((PObject 8 0, []), OArr [OHex (str "text")]));
      [exists false, h_trailer; split; reflexivity| |exists [SIndex 0]; reflexivity].
    apply opened_ref; [vm_compute; reflexivity|reflexivity|noref].
  - intros H. vm_compute in H. discriminate.
Qed.

(** Cases.  A signed document of the usual layout, orderly: the contents of the signature are shown as stored, other strings are
    deciphered, and the contents are saved unchanged. *)
Definition k_trailer : dict := [(str "Encrypt", ORef 9 0); (str "ID", OArr [OHex (str "id")]); (str "Root", ORef 1 0)].
Definition k_field : dict := [(str "FT", OName (str "Sig")); (str "V", ORef 4 0)].
Definition signed (value contents : obj) : source :=
  {| f_sections := [(false, k_trailer)]; f_xref_streams := []; f_packed := fun _ _ => false;
     f_object := fun n _ => Ok match n with
       | 1 => ODict h_root
       | 2 => ODict [(str "FT", OName (str "Sig")); (str "V", value)]
       | 4 => ODict [(str "Contents", contents); (str "Reason", OLit (rc4 (object_key (nrange 1 16) 4 0 ARC4) (str "why")))]
       | 9 => ODict [(str "V", OInt 2)]
       | _ => ONull
       end;
     f_crypt := h_crypt |}.
Definition good : source := signed (ORef 4 0) (OHex (str "text")).
Definition good_state : state := fst (initialize 3 good closed).

(** the file with its catalog in an object stream, and a password *)
Definition locked : source :=
  {| f_sections := f_sections good; f_xref_streams := []; f_packed := fun n _ => n =? 1; f_object := f_object good;
     f_crypt := {| c_dict := c_dict h_crypt; c_place := Some (9, 0); c_key := None; c_empty_password := Ok None; c_compressed := fun _ _ => Some false |} |}.

Example C72_case : forall dec enc,
  initialize 3 good closed = (good_state, Ok tt) /\ is_encrypted good_state = true /\
  string_value dec good good_state (PObject 4 0, [SKey (str "Contents")]) (str "text") = Ok (str "text") /\
  string_value dec good good_state (PObject 4 0, [SKey (str "Reason")]) (rc4 (object_key (nrange 1 16) 4 0 ARC4) (str "why")) = Ok (str "why") /\
  string_value dec good good_state (PSection 0, [SKey (str "ID"); SIndex 0]) (str "id") = Ok (str "id") /\
  string_saved enc dec good good_state (PObject 4 0, [SKey (str "Contents")]) [] (str "text") = Ok (str "text").
Proof. intros. repeat split; vm_compute; reflexivity. Qed.

Example C72_bad_case :
  snd (initialize 3 (signed ONull (OHex [])) closed) = Throw EConversion /\
  snd (initialize 3 (signed (ORef 4 0) (OLit (str "text"))) closed) = Throw EConversion /\
  snd (initialize 3 locked closed) = Throw EPassword /\
  snd (initialize 3 locked (fst (initialize 3 locked closed))) = Ok tt.
Proof. repeat split; vm_compute; reflexivity. Qed.

Definition g_trailer : loc := ((PSection 0, []), ODict k_trailer).
Definition g_root : loc := ((PObject 1 0, []), ODict h_root).
Definition g_form : loc := (child (PObject 1 0, []) (SKey (str "AcroForm")), ODict h_form).
Definition g_fields : loc := (child (fst g_form) (SKey (str "Fields")), OArr [ORef 2 0]).
Definition g_field : loc := ((PObject 2 0, []), ODict k_field).
Definition g_signature : dict := [(str "Contents", OHex (str "text")); (str "Reason", OLit (rc4 (object_key (nrange 1 16) 4 0 ARC4) (str "why")))].
Lemma g_t : trailer good 0 g_trailer.
Proof. exists false, k_trailer. split; reflexivity. Qed.
Lemma g_r : value_of good g_trailer (str "Root") g_root.
Proof. apply opened_ref; [vm_compute; reflexivity|reflexivity|noref]. Qed.
Lemma g_a : value_of good g_root (str "AcroForm") g_form.
Proof. apply opened_entry; [vm_compute; reflexivity|noref]. Qed.
Lemma g_f : value_of good g_form (str "Fields") g_fields.
Proof. apply opened_entry; [vm_compute; reflexivity|noref]. Qed.
Lemma g_list : field_list good g_fields.
Proof. exists g_trailer, g_root, g_form. exact (conj g_t (conj g_r (conj g_a g_f))). Qed.
Lemma g_element : forall fs x l, field_list good fs -> element fs x -> points good x l -> l = g_field.
Proof.
  intros fs x l Hf (a & i & o & Ha & Hn & ->) Hl. rewrite (field_list_det _ _ _ Hf g_list) in *. cbn [g_fields snd] in Ha. injection Ha as <-.
  destruct i as [|[|i]]; [|discriminate Hn|discriminate Hn]. injection Hn as <-. eapply points_det; [exact Hl|]. eapply points_ref; [reflexivity|apply points_self; noref].
Qed.
Lemma g_no_entry : forall k e, sm_find k k_field = None -> ~ has_entry g_field k e.
Proof. intros k e H (d & o & H1 & H2 & _). cbn [g_field snd] in H1. injection H1 as <-. rewrite H in H2. discriminate. Qed.
Lemma g_fields_only : forall l t, field good l t -> l = g_field.
Proof.
  induction 1 as [fs x l t Hf Hx Hl Hd Ht|p u ks x l t Hp IH Hks Hx Hl Hd Ht]; [eapply g_element; eassumption|].
  subst p. destruct Hks as (e & He & _). apply g_no_entry in He; [destruct He|vm_compute; reflexivity].
Qed.

Example C72_case_usual : usual_layout good.
Proof.
  split; [|split].
  - intros t s n g o Ht He Ho. cbn [good signed f_object] in Ho. intros (a & b & ->). clear He. destruct n as [|n]; [discriminate Ho|]. repeat (destruct n as [n|n|]; try discriminate Ho).
  - intros i t s o (b & d & Hd & ->) (d' & o' & H1 & H2 & H3). destruct i as [|[|i]]; cbn [good signed f_sections nth_error] in Hd; [|discriminate Hd|discriminate Hd].
    injection Hd as <- <-. cbn [snd] in H1. injection H1 as <-. apply pair_equal_spec in H3. destruct H3 as [_ ->]. intros (n & g & ->). vm_compute in H2. discriminate.
  - intros l t e Hf. rewrite (g_fields_only _ _ Hf). apply g_no_entry. vm_compute. reflexivity.
Qed.

Example C72_case_orderly : orderly good.
Proof.
  split; [discriminate|]. split; [|split; [|split; [|split; [|split]]]].
  - intros n g. destruct n as [|n]; [eexists; split; [reflexivity|noref]|].
    repeat (destruct n as [n|n|]; try (eexists; split; [reflexivity|noref])).
  - reflexivity.
  - right. reflexivity.
  - intros t root form Ht Hr Hf. rewrite (trailer_det _ _ _ _ Ht g_t) in Hr. rewrite (value_det _ _ _ _ _ Hr g_r) in Hf.
    rewrite (value_det _ _ _ _ _ Hf g_a). eexists. reflexivity.
  - intros l Hl. rewrite (field_list_det _ _ _ Hl g_list). eexists. reflexivity.
  - intros fs x l Hf Hx Hl. rewrite (g_element _ _ _ Hf Hx Hl). split.
    + intros t Ht. assert (Hft : value_of good g_field (str "FT") (child (PObject 2 0, []) (SKey (str "FT")), OName (str "Sig"))) by (apply opened_entry; [vm_compute; reflexivity|noref]).
      rewrite (value_det _ _ _ _ _ Ht Hft). eexists. reflexivity.
    + intros s v _ Hv. assert (Hvv : value_of good g_field (str "V") ((PObject 4 0, []), ODict g_signature)) by (apply opened_ref; [vm_compute; reflexivity|reflexivity|noref]).
      rewrite (value_det _ _ _ _ _ Hv Hvv). split; [eexists; reflexivity|]. intros c Hc.
      assert (Hcc : value_of good ((PObject 4 0, []), ODict g_signature) (str "Contents") (child (PObject 4 0, []) (SKey (str "Contents")), OHex (str "text"))) by (apply opened_entry; [vm_compute; reflexivity|noref]).
      rewrite (value_det _ _ _ _ _ Hc Hcc). eexists. reflexivity.
Qed.

Print Assumptions C72_nothing_else.
Print Assumptions C72_strings_partial.
Print Assumptions C72_streams_partial.
Print Assumptions C72_saved_partial.
Print Assumptions C72_opens_partial.
Print Assumptions C72_unsigned_field_refuted.
Print Assumptions C72_literal_contents_refuted.
Print Assumptions C72_password_refuted.
Print Assumptions C72_nested_field_refuted.
Print Assumptions C72_indirect_identifier_refuted.

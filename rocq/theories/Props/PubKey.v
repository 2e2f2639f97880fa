(** C83: documents that are protected for the holders of certificates. *)
From Coq Require Import List NArith ZArith Bool String Lia.
From Coq Require Import List.
From Verif.Model Require Import Base SMap Object Arith Digest Encryption PubKey.
From Verif.Spec Require Import Encryption PubKey.
From Verif.Proof Require Import Tac PubKey.
From Verif.Proof Require Encryption.
From Verif.Props Require Encryption.
Import ListNotations.
Local Open Scope N_scope.

Section C83.
Variable parse : bytes -> option envelope.
Variable key_size : bytes -> option nat.
Variable unseal : bytes -> bytes -> option bytes.
Variables sha1 sha256 : bytes -> bytes.
Variable holder : key_holders.
Variable room : nat.
Let give (d : option dict) (old : option bytes) (key : private_key) : res (bool * option bytes) :=
  set_encryption_key parse key_size unseal sha1 sha256 d old key.
Let made (seed : bytes) (gs : list group) : Prop :=
  groups_of parse key_size unseal holder seed gs /\ Forall (fun g => (Z.of_nat (List.length (g_string g)) < 2147483647)%Z) gs.
Let recipient (c : certificate) (gs : list group) : Prop := exists g, In g gs /\ In c (g_certificates g).

(** Whoever is named in one of the strings gets in, with the key of the standard; whatever else the strings hold for whom.
    Older documents, whose recipients stand in the encryption dictionary. *)
Theorem C83_recipient_partial : forall d bits seed gs old c, made seed gs -> says_old d bits (map g_string gs) ->
  (0 <= bits <= 2147483647)%Z -> recipient c gs ->
  give (Some d) old (key_of holder room c) =
  Ok (true, Some (public_file_key sha1 (Z.to_nat (bits / 8)) seed (map g_string gs) true)).
Proof.
  intros d bits seed gs old c [HG Hz] Hd Hb Hc. unfold give, set_encryption_key. destruct (settings_old d bits _ Hd) as (r & -> & Hr). cbn [rbind].
  rewrite (recipient_key_ok parse key_size unseal sha1 sha256 holder room seed gs r c bits ANone HG Hr Hz Hc Hb). cbn [is_aes].
  rewrite andb_false_r. reflexivity.
Qed.

(** Documents with a crypt filter, when the length of the key is also in the encryption dictionary (or, for AES with 256 bits, in the
    filter). *)
Theorem C83_recipient_filter_partial : forall d method flt bits seed gs old c, made seed gs ->
  says_filter d (str "DefaultCryptFilter") method flt (map g_string gs) -> filter_bits method flt bits ->
  (sm_find (str "Length") d = Some (OInt bits) /\ (method = str "AESV3" -> sm_find (str "Length") flt = None) \/
   method = str "AESV3" /\ sm_find (str "Length") d = None /\ sm_find (str "Length") flt = Some (OInt bits)) ->
  (0 <= bits <= 2147483647)%Z -> recipient c gs ->
  give (Some d) old (key_of holder room c) =
  Ok (true, Some (public_file_key (if beq method (str "AESV3") then sha256 else sha1) (Z.to_nat (bits / 8)) seed (map g_string gs) true)).
Proof.
  intros d method flt bits seed gs old c [HG Hz] Hd Hf Hl Hb Hc. unfold give, set_encryption_key.
  destruct (settings_filter d method flt (map g_string gs) bits Hd) as (r & -> & Hr).
  { destruct Hl as [(H1 & H2)|(-> & H1 & H2)].
    - right. split; [|apply length_of; now left]. destruct (beq method (str "AESV3")) eqn:E; [|now left]. apply beq_iff in E. right. exact (H2 E).
    - left. split; [apply beq_self|]. split; [exact H2|]. exists 40%Z. apply length_of. now right. }
  cbn [rbind]. rewrite (recipient_key_ok parse key_size unseal sha1 sha256 holder room seed gs r c bits _ HG Hr Hz Hc Hb).
  replace ((bits =? 256)%Z && is_aes (method_algorithm method)) with (beq method (str "AESV3")); [reflexivity|].
  destruct Hf as [(-> & ->)|[(-> & ->)|(-> & _)]].
  - reflexivity.
  - reflexivity.
  - change (is_aes (method_algorithm (str "V2"))) with false. rewrite andb_false_r. reflexivity.
Qed.

(** Nobody else gets in, whatever the document says, and a refused key changes nothing. *)
Theorem C83_outsider : forall d old c, (forall s, offered d s -> not_named_in parse s c) ->
  give (Some d) old (key_of holder room c) = Ok (false, old) \/ exists e, give (Some d) old (key_of holder room c) = Throw e.
Proof.
  intros d old c H. unfold give, set_encryption_key. destruct (handler_settings d) as [[[r bits] alg]|e| |] eqn:Es; cbn [rbind].
  - destruct (unnamed_key parse key_size unseal sha1 sha256 holder room c r bits alg) as (e & E).
    { intros s Hs. apply H. exact (settings_offered d r bits alg s Es Hs). }
    rewrite E. destruct e; try (now left). right. now exists ENotModelled.
  - right. now exists e.
  - exfalso. revert Es. clear. unfold handler_settings, find_name, find_length_bits, find_integer, find_array, find_dict.
    intros Es. repeat match type of Es with context [match ?x with _ => _ end] => destruct x; try discriminate; cbn [rbind] in Es end.
  - exfalso. revert Es. clear. unfold handler_settings, find_name, find_length_bits, find_integer, find_array, find_dict.
    intros Es. repeat match type of Es with context [match ?x with _ => _ end] => destruct x; try discriminate; cbn [rbind] in Es end.
Qed.

(** A key file without a certificate opens nothing, whatever private key is in it. *)
Theorem C83_no_certificate : forall d old serial opened,
  give (Some d) old (pkcs12 None serial room opened) = Ok (false, old) \/ exists e, give (Some d) old (pkcs12 None serial room opened) = Throw e.
Proof.
  intros d old serial opened. unfold give, set_encryption_key. destruct (handler_settings d) as [[[r bits] alg]|e| |] eqn:Es; cbn [rbind].
  - assert (E : exists e, decrypt_enveloped parse key_size unseal (pkcs12 None serial room opened) r = Throw e).
    { clear. induction r as [|o r IH]; [now exists EGeneral|]. cbn [decrypt_enveloped].
      destruct (as_string o) as [s|e| |] eqn:Es; cbn [rbind]; [|now exists e|destruct o; discriminate|destruct o; discriminate].
      unfold safe_convert. destruct (is_in_range _ _ _); cbn [rbind]; [|now exists EConversion].
      destruct (parse s) as [e|]; [|exact IH].
      assert (N : forall infos, try_infos key_size unseal (pkcs12 None serial room opened) (e_sealed e) infos = Ok None).
      { induction infos as [|i infos IHi]; [reflexivity|]. cbn [try_infos]. destruct (ri_issuer i); [|exact IHi]. cbn [pkcs12 k_contains negb]. exact IHi. }
      rewrite N. exact IH. }
    destruct E as (e & E). unfold recipient_key. rewrite E. cbn [rbind]. destruct e; try (now left). right. now exists ENotModelled.
  - right. now exists e.
  - exfalso. revert Es. clear. unfold handler_settings, find_name, find_length_bits, find_integer, find_array, find_dict.
    intros Es. repeat match type of Es with context [match ?x with _ => _ end] => destruct x; try discriminate; cbn [rbind] in Es end.
  - exfalso. revert Es. clear. unfold handler_settings, find_name, find_length_bits, find_integer, find_array, find_dict.
    intros Es. repeat match type of Es with context [match ?x with _ => _ end] => destruct x; try discriminate; cbn [rbind] in Es end.
Qed.

(** ... and a document that is written by the rules answers them with false. *)
Theorem C83_outsider_refused : forall d old c l, (forall s, In s l -> not_named_in parse s c) ->
  (exists bits, says_old d bits l) \/
  (exists method flt bits, says_filter d (str "DefaultCryptFilter") method flt l /\
     (sm_find (str "Length") d = Some (OInt bits) \/ sm_find (str "Length") d = None) /\
     (sm_find (str "Length") flt = Some (OInt bits) \/ sm_find (str "Length") flt = None)) ->
  give (Some d) old (key_of holder room c) = Ok (false, old).
Proof.
  intros d old c l H Hd. unfold give, set_encryption_key.
  assert (HS : exists r bits alg, handler_settings d = Ok (r, bits, alg) /\ strings_of r l).
  { destruct Hd as [(bits & Hd)|(method & flt & bits & Hd & Hl & Hfl)].
    - destruct (settings_old d bits l Hd) as (r & E & Hr). now exists r, bits, ANone.
    - assert (HL : exists other, find_length_bits d = Ok other).
      { destruct Hl as [Hl|Hl]; [exists bits|exists 40%Z]; apply length_of; [now left|now right]. }
      destruct HL as (other & HL). destruct (beq method (str "AESV3")) eqn:E.
      + destruct Hfl as [Hfl|Hfl].
        * destruct (settings_filter d method flt l bits Hd) as (r & E' & Hr); [left; repeat split; [exact E|exact Hfl|now exists other]|].
          now exists r, bits, (method_algorithm method).
        * destruct (settings_filter d method flt l other Hd) as (r & E' & Hr); [right; split; [now right|exact HL]|].
          now exists r, other, (method_algorithm method).
      + destruct (settings_filter d method flt l other Hd) as (r & E' & Hr); [right; split; [now left|exact HL]|].
        now exists r, other, (method_algorithm method). }
  destruct HS as (r & bits & alg & -> & Hr). cbn [rbind].
  assert (E : exists e, decrypt_enveloped parse key_size unseal (key_of holder room c) r = Throw e /\ e <> ENotModelled).
  { clear Hd. induction Hr as [|o s r l Ho Hr IH]; [now exists EGeneral|]. cbn [decrypt_enveloped]. rewrite (as_string_of _ _ Ho). cbn [rbind].
    unfold safe_convert. destruct (is_in_range _ _ _); cbn [rbind]; [|now exists EConversion].
    assert (IH' := IH ltac:(intros s' Hs'; apply H; now right)).
    destruct (parse s) as [e|] eqn:Ep; [|exact IH']. rewrite infos_unnamed; [exact IH'|].
    intros i Hi. exact (H s (or_introl eq_refl) e i Ep Hi). }
  destruct E as (e & E & He). unfold recipient_key. rewrite E. cbn [rbind]. destruct e; try reflexivity. now elim He.
Qed.

(** A file that is not encrypted has no key to set. *)
Theorem C83_not_encrypted : forall old key, give None old key = Ok (false, old).
Proof. reflexivity. Qed.

(** What the standard enciphers with that key comes back. *)
Theorem C83_data_partial : forall cbc_encrypt cbc_decrypt d method flt bits seed gs old c which place num gen use iv data,
  block_cipher cbc_encrypt cbc_decrypt -> (forall x, List.length (sha1 x) = 20%nat) -> (forall x, List.length (sha256 x) = 32%nat) ->
  made seed gs -> says_filter d (str "DefaultCryptFilter") method flt (map g_string gs) -> filter_bits method flt bits ->
  (sm_find (str "Length") d = Some (OInt bits) /\ (method = str "AESV3" -> sm_find (str "Length") flt = None) \/
   method = str "AESV3" /\ sm_find (str "Length") d = None /\ sm_find (str "Length") flt = Some (OInt bits)) ->
  (0 <= bits <= 2147483647)%Z -> recipient c gs ->
  sm_find (str "V") d = Some (OInt 4) \/ sm_find (str "V") d = Some (OInt 5) ->
  which = str "StmF" \/ which = str "StrF" -> sm_find which d = Some (OName (str "DefaultCryptFilter")) ->
  place <> Some (num, gen) -> use num gen = Some false -> num <> 0 ->
  List.length iv = 16%nat -> data <> [] -> (Z.of_nat (List.length data) + 16 < 2147483647)%Z ->
  exists k, give (Some d) old (key_of holder room c) = Ok (true, Some k) /\
    let file_key := public_file_key (if beq method (str "AESV3") then sha256 else sha1) (Z.to_nat (bits / 8)) seed (map g_string gs) true in
    let enciphered :=
      if beq method (str "AESV3") then iv ++ cbc_encrypt file_key iv (pkcs7 data)
      else if beq method (str "AESV2") then iv ++ cbc_encrypt (data_key file_key num gen true) iv (pkcs7 data)
      else rc4 (data_key file_key num gen false) data in
    decrypt_with cbc_decrypt which
      {| c_dict := d; c_place := place; c_key := Some k; c_empty_password := Ok None; c_compressed := use |} enciphered num gen = Ok data.
Proof.
  intros enc dec d method flt bits seed gs old c which place num gen use iv data Hcip Hl1 Hl2 HM Hd Hf Hl Hb Hc HV Hw Hwd Hpl Hu Hn Hiv Hdata Hsz.
  eexists. split; [exact (C83_recipient_filter_partial d method flt bits seed gs old c HM Hd Hf Hl Hb Hc)|]. cbv zeta.
  set (hash := if beq method (str "AESV3") then sha256 else sha1).
  set (k := public_file_key hash (Z.to_nat (bits / 8)) seed (map g_string gs) true).
  assert (Ealg : data_algorithm d which = Ok (method_algorithm method)).
  { destruct Hd as (f & cf & _ & _ & Hcf & Hname & Hm & _). unfold data_algorithm, filter_algorithm, find_integer.
    assert (HE : sm_find which d = Some (OName (str "DefaultCryptFilter"))) by exact Hwd. unfold method_algorithm.
    destruct HV as [HV|HV]; rewrite HV; cbn [rbind Z.eqb Pos.eqb orb negb]; rewrite (find_name_of _ _ _ HE); cbn [rbind]; rewrite !find_contains, Hcf;
      cbn [negb]; unfold find_dict; rewrite Hcf; cbn [rbind]; rewrite (find_contains _ cf), Hname; cbn [negb rbind]; rewrite (find_contains _ flt), Hm; cbn [negb];
      rewrite (find_name_of _ _ _ Hm); cbn [rbind];
      destruct (beq method (str "AESV2") || beq method (str "AESV3")); [reflexivity| |reflexivity|]; destruct (beq method (str "V2")); reflexivity. }
  set (cr := {| c_dict := d; c_place := place; c_key := Some k; c_empty_password := Ok None; c_compressed := use |}).
  assert (Hplace : is_place cr num gen = false).
  { unfold is_place. cbn [c_place cr]. destruct place as [[n g]|]; [|reflexivity]. destruct (n =? num) eqn:E1; [|reflexivity]. cbn [andb].
    destruct (g =? gen) eqn:E2; [|reflexivity]. apply N.eqb_eq in E1, E2. subst. now elim Hpl. }
  destruct Hf as [(-> & ->)|[(-> & ->)|(-> & Hfl)]].
  - change (beq (str "AESV2") (str "AESV3")) with false in *. change (beq (str "AESV2") (str "AESV2")) with true. cbv iota in hash |- *.
    assert (Hk : List.length k = 16%nat).
    { unfold k, public_file_key. rewrite firstn_length. unfold hash. rewrite Hl1. reflexivity. }
    change (method_algorithm (str "AESV2")) with AAES in Ealg.
    assert (Hok : List.length (object_key k num gen AAES) = 16%nat) by (rewrite Encryption.object_key_length; lia).
    assert (HD : data_key k num gen true = object_key k num gen AAES) by (rewrite Encryption.object_key_standard; reflexivity).
    rewrite HD. unfold decrypt_with. cbn [c_dict cr]. rewrite Ealg. cbn [rbind]. unfold decrypt_data. rewrite Hplace. cbn [c_compressed cr]. rewrite Hu.
    unfold current_key. cbn [c_key cr rbind is_aes].
    rewrite (proj2 (N.eqb_neq (size_of (iv ++ _)) 0)) by (unfold size_of; rewrite app_length; lia).
    rewrite (proj2 (N.eqb_neq (size_of k) 32)) by (unfold size_of; lia). cbn [andb].
    apply Encryption.aes_decrypt_standard; [exact Hcip|now left|exact Hiv|exact Hsz].
  - change (beq (str "AESV3") (str "AESV3")) with true in *. cbv iota in hash |- *.
    assert (Hk : List.length k = 32%nat).
    { unfold k, public_file_key. rewrite firstn_length. unfold hash. rewrite Hl2. reflexivity. }
    change (method_algorithm (str "AESV3")) with AAES in Ealg.
    unfold decrypt_with. cbn [c_dict cr]. rewrite Ealg. cbn [rbind]. unfold decrypt_data. rewrite Hplace. cbn [c_compressed cr]. rewrite Hu.
    unfold current_key. cbn [c_key cr rbind is_aes].
    rewrite (proj2 (N.eqb_neq (size_of (iv ++ _)) 0)) by (unfold size_of; rewrite app_length; lia).
    assert (Hk' : size_of k = 32) by (unfold size_of; lia). rewrite Hk'. cbn [N.eqb Pos.eqb andb]. rewrite <- Hk'.
    apply Encryption.aes_decrypt_standard; [exact Hcip|now right|exact Hiv|exact Hsz].
  - change (beq (str "V2") (str "AESV3")) with false in *. change (beq (str "V2") (str "AESV2")) with false. cbv iota in hash |- *.
    change (method_algorithm (str "V2")) with ARC4 in Ealg.
    apply (Verif.Props.Encryption.C35_roundtrip_partial enc dec cr which iv data num gen ARC4 k); try assumption; try reflexivity; [discriminate|lia].
Qed.

(** Documents that leave their metadata readable: the library computes the key as if they did not. *)
Theorem C83_metadata_refuted : forall d bits seed gs old c, made seed gs -> says_old d bits (map g_string gs) ->
  (0 <= bits <= 2147483647)%Z -> recipient c gs -> sm_find (str "EncryptMetadata") d = Some (OBool false) ->
  let standard := public_file_key sha1 (Z.to_nat (bits / 8)) seed (map g_string gs) in standard true <> standard false ->
  exists k, give (Some d) old (key_of holder room c) = Ok (true, Some k) /\ k <> standard false.
Proof.
  intros d bits seed gs old c HM Hd Hb Hc _ standard Hne. exists (standard true). split; [|exact Hne].
  exact (C83_recipient_partial d bits seed gs old c HM Hd Hb Hc).
Qed.

(** AES documents that do not repeat the length in the encryption dictionary, where the standard does not ask for it: the key has
    five bytes. *)
Theorem C83_length_refuted : forall d method flt bits seed gs old c, (forall x, List.length (sha1 x) = 20%nat) ->
  (forall x, List.length (sha256 x) = 32%nat) -> made seed gs ->
  says_filter d (str "DefaultCryptFilter") method flt (map g_string gs) -> filter_bits method flt bits -> recipient c gs ->
  sm_find (str "Length") d = None -> method = str "AESV2" \/ method = str "AESV3" /\ sm_find (str "Length") flt = None ->
  exists k, give (Some d) old (key_of holder room c) = Ok (true, Some k) /\ List.length k = 5%nat /\
    k <> public_file_key (if beq method (str "AESV3") then sha256 else sha1) (Z.to_nat (bits / 8)) seed (map g_string gs) true.
Proof.
  intros d method flt bits seed gs old c Hl1 Hl2 [HG Hz] Hd Hf Hc Hl Hm. unfold give, set_encryption_key.
  destruct (settings_filter d method flt (map g_string gs) 40 Hd) as (r & -> & Hr).
  { right. split; [|apply length_of; now right]. destruct Hm as [->|[_ H]]; [left; reflexivity|now right]. }
  cbn [rbind]. rewrite (recipient_key_ok parse key_size unseal sha1 sha256 holder room seed gs r c 40 _ HG Hr Hz Hc ltac:(lia)).
  cbn [Z.eqb Pos.eqb andb]. eexists. split; [reflexivity|].
  assert (H5 : List.length (public_file_key sha1 (Z.to_nat (40 / 8)) seed (map g_string gs) true) = 5%nat).
  { unfold public_file_key. rewrite firstn_length, Hl1. reflexivity. }
  split; [exact H5|]. intros E. rewrite E in H5. revert H5. unfold public_file_key. rewrite firstn_length.
  destruct Hf as [(-> & ->)|[(-> & ->)|(-> & _)]].
  - change (beq (str "AESV2") (str "AESV3")) with false. cbv iota. rewrite Hl1. discriminate.
  - change (beq (str "AESV3") (str "AESV3")) with true. cbv iota. rewrite Hl2. discriminate.
  - exfalso. destruct Hm as [Hm|[Hm _]]; apply beq_iff in Hm; discriminate.
Qed.

(** A crypt filter of another name: its recipients are refused. *)
Theorem C83_filter_name_refuted : forall d name method flt l old c cf, says_filter d name method flt l ->
  sm_find (str "CF") d = Some (ODict cf) -> sm_find (str "DefaultCryptFilter") cf = None -> sm_find (str "Length") d = None ->
  give (Some d) old (key_of holder room c) = Ok (false, old).
Proof.
  intros d name method flt l old c cf (f & cf' & Hf & Hs & _) Hcf Hn Hl. unfold give, set_encryption_key, handler_settings.
  rewrite (find_name_of _ _ _ Hf), (find_name_of _ _ _ Hs), (length_of d 40) by now right. cbn [rbind].
  change (beq (str "adbe.pkcs7.s5") (str "adbe.pkcs7.s3") || beq (str "adbe.pkcs7.s5") (str "adbe.pkcs7.s4")) with false.
  change (beq (str "adbe.pkcs7.s5") (str "adbe.pkcs7.s5")) with true. cbv iota.
  rewrite find_contains, Hcf. cbn [negb]. unfold find_dict at 1. rewrite Hcf. cbn [rbind]. rewrite find_contains, Hn. reflexivity.
Qed.

(** Undefined behaviour: a message whose content is shorter than the seed is read behind its end. *)
Theorem C83_short_content_refuted : forall d bits s content cs old c, says_old d bits [s] ->
  enveloped_for parse key_size unseal holder s content cs -> In c cs -> (List.length content < 20)%nat ->
  (Z.of_nat (List.length s) < 2147483647)%Z -> give (Some d) old (key_of holder room c) = Undef.
Proof.
  intros d bits s content cs old c Hd (e & k & Hp & HF & Hk & Hs & Hu) Hc Hl Hz. unfold give, set_encryption_key.
  destruct (settings_old d bits _ Hd) as (r & -> & Hr). cbn [rbind]. inversion Hr as [|o s' r' l' Ho Hr' E1 E2]. subst r s' l'. clear Hr Hr'.
  unfold recipient_key. cbn [decrypt_enveloped]. rewrite (as_string_of _ _ Ho). cbn [rbind].
  rewrite Encryption.to_int by (unfold size_of; lia). cbn [rbind]. rewrite Hp.
  destruct (forall2_in_r _ _ _ _ _ _ HF Hc) as (i & Hi & Hn).
  rewrite (infos_named parse key_size unseal sha1 sha256 holder room c (e_sealed e) (e_infos e) k content);
    [|now exists i|intros a Ha Hna; now apply (Hk a c)|exact Hs|exact Hu].
  cbn [rbind]. rewrite (proj2 (PeanoNat.Nat.ltb_lt _ _)) by exact Hl. reflexivity.
Qed.

(** A document that is protected with a password is not answered with false: the call throws. *)
Theorem C83_password_document_refuted : forall d f old key, sm_find (str "Filter") d = Some (OName f) -> sm_find (str "SubFilter") d = None ->
  give (Some d) old key = Throw EGeneral.
Proof.
  intros d f old key Hf Hs. unfold give, set_encryption_key, handler_settings. rewrite (find_name_of _ _ _ Hf). cbn [rbind]. unfold find_name. rewrite Hs. reflexivity.
Qed.

(** A message that names the certificate but cannot be opened with its key hides all that come after it. *)
Theorem C83_first_decides_refuted : forall d bits s rest old c e i others, says_old d bits (s :: rest) -> parse s = Some e ->
  e_infos e = i :: others -> named i c -> holder c (ri_key i) = None -> (Z.of_nat (List.length s) < 2147483647)%Z ->
  give (Some d) old (key_of holder room c) = Ok (false, old).
Proof.
  intros d bits s rest old c e i others Hd Hp He Hn Hh Hz. unfold give, set_encryption_key.
  destruct (settings_old d bits _ Hd) as (r & -> & Hr). cbn [rbind]. inversion Hr as [|o s' r' l' Ho Hr' E1 E2]. subst r s' l'. clear Hr.
  unfold recipient_key. cbn [decrypt_enveloped]. rewrite (as_string_of _ _ Ho). cbn [rbind].
  rewrite Encryption.to_int by (unfold size_of; lia). cbn [rbind]. rewrite Hp, He. cbn [try_infos].
  pose proof (proj1 Hn) as Hi. rewrite Hi. rewrite (proj2 (contains_named holder room c i (issuer c) Hi) Hn). cbn [negb].
  unfold key_of at 1, pkcs12. cbn [k_decrypt]. rewrite Hh. reflexivity.
Qed.
End C83.

(** A document for three people in two groups; toy functions of OpenSSL. *)
Section Case.
Definition toy_certificate (b : N) : certificate := {| issuer := str "CA"; serial := [b] |}.
Definition toy_parse (s : bytes) : option envelope :=
  match s with
  | 1 :: a :: p => Some {| e_infos := [{| ri_issuer := Some (str "CA"); ri_serial := [a]; ri_key := [a; 9] |}]; e_sealed := p |}
  | 2 :: a :: b :: p => Some {| e_infos := [{| ri_issuer := Some (str "CA"); ri_serial := [a]; ri_key := [a; 9] |};
                                       {| ri_issuer := Some (str "CA"); ri_serial := [b]; ri_key := [b; 9] |}]; e_sealed := p |}
  | _ => None
  end.
Definition toy_size (p : bytes) : option nat := Some 1%nat.
Definition toy_unseal (k p : bytes) : option bytes := match k with [9] => Some p | _ => None end.
Definition toy_holder : key_holders := fun c x =>
  match x with [a; k] => if beq (serial c) [a] && beq (issuer c) (str "CA") then Some [k] else None | _ => None end.
Definition toy_hash (n : nat) (x : bytes) : bytes := firstn n (fold_left (fun a b => (a * 7 + b) mod 251) x 5 :: rev x ++ repeat 0 n).
Definition toy_seed : bytes := nrange 100 20.
Definition toy_groups : list group :=
  [{| g_string := 1 :: 50 :: toy_seed ++ [0; 0; 0; 1]; g_permissions := [0; 0; 0; 1]; g_certificates := [toy_certificate 50] |};
   {| g_string := 2 :: 51 :: 52 :: toy_seed ++ [0; 0; 0; 2]; g_permissions := [0; 0; 0; 2];
      g_certificates := [toy_certificate 51; toy_certificate 52] |}].
Definition toy_filter : list (bytes * obj) :=
  [(str "CFM", OName (str "AESV2")); (str "Recipients", OArr (map (fun g => OHex (g_string g)) toy_groups))].
Definition toy_dict (length : list (bytes * obj)) : dict :=
  [(str "CF", ODict [(str "DefaultCryptFilter", ODict toy_filter)]); (str "Filter", OName (str "Adobe.PubSec"))] ++ length ++
  [(str "StmF", OName (str "DefaultCryptFilter")); (str "StrF", OName (str "DefaultCryptFilter"));
   (str "SubFilter", OName (str "adbe.pkcs7.s5")); (str "V", OInt 4)].
Example C83_case_made : groups_of toy_parse toy_size toy_unseal toy_holder toy_seed toy_groups.
Proof.
  split; [reflexivity|]. repeat apply Forall_cons; [| |apply Forall_nil]; (split; [|reflexivity]).
  - eexists. exists [9]. split; [reflexivity|]. split; [repeat constructor|]. split; [|split; reflexivity].
    intros i c [<-|[]] [<-|[]] _. reflexivity.
  - eexists. exists [9]. split; [reflexivity|]. split; [repeat constructor|]. split; [|split; reflexivity].
    intros i c [<-|[<-|[]]] [<-|[<-|[]]] [_ Hn]; try discriminate; reflexivity.
Qed.
Let key_for (d : dict) (b : N) : res (bool * option bytes) :=
  set_encryption_key toy_parse toy_size toy_unseal (toy_hash 20) (toy_hash 32) (Some d) None (key_of toy_holder 4 (toy_certificate b)).
Example C83_case :
  says_filter (toy_dict [(str "Length", OInt 128)]) (str "DefaultCryptFilter") (str "AESV2")
    toy_filter (map g_string toy_groups) /\
  (let k := public_file_key (toy_hash 20) 16 toy_seed (map g_string toy_groups) true in
   List.length k = 16%nat /\ key_for (toy_dict [(str "Length", OInt 128)]) 50 = Ok (true, Some k) /\
   key_for (toy_dict [(str "Length", OInt 128)]) 52 = Ok (true, Some k)) /\
  key_for (toy_dict [(str "Length", OInt 128)]) 53 = Ok (false, None) /\
  (exists k, key_for (toy_dict []) 50 = Ok (true, Some k) /\ List.length k = 5%nat) /\
  public_file_key (toy_hash 20) 16 toy_seed (map g_string toy_groups) true <> public_file_key (toy_hash 20) 16 toy_seed (map g_string toy_groups) false.
Proof.
  split.
  { exists (str "Adobe.PubSec"). eexists. repeat split. eexists. split; [reflexivity|]. repeat constructor; now right. }
  split; [cbv zeta; split; [reflexivity|split; vm_compute; reflexivity]|]. split; [vm_compute; reflexivity|].
  split; [exists (public_file_key (toy_hash 20) 5 toy_seed (map g_string toy_groups) true); split; [vm_compute; reflexivity|reflexivity]|]. vm_compute. discriminate.
Qed.
End Case.

Print Assumptions C83_recipient_partial.
Print Assumptions C83_recipient_filter_partial.
Print Assumptions C83_outsider.
Print Assumptions C83_no_certificate.
Print Assumptions C83_outsider_refused.
Print Assumptions C83_not_encrypted.
Print Assumptions C83_data_partial.
Print Assumptions C83_metadata_refuted.
Print Assumptions C83_length_refuted.
Print Assumptions C83_filter_name_refuted.
Print Assumptions C83_short_content_refuted.
Print Assumptions C83_password_document_refuted.
Print Assumptions C83_first_decides_refuted.

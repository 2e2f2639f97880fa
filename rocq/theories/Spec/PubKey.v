(** What protection for the holders of certificates should do, written from ISO 32000-1, 7.6.4 and 7.6.5, and ISO 32000-2 for keys of 256
    bits, without the program's helpers.  PKCS#7 messages are described through what OpenSSL makes of them. *)
From Coq Require Import List NArith ZArith Bool String.
From Coq Require Import List.
From Verif.Model Require Import Base SMap Object PubKey.
Import ListNotations.
Local Open Scope N_scope.

(** A certificate is known by its issuer and serial number. *)
Record certificate : Type := { issuer : bytes; serial : bytes }.
Definition named (i : recipient_info) (c : certificate) : Prop := ri_issuer i = Some (issuer c) /\ ri_serial i = serial c.

(** How the private keys decipher: for every certificate, enciphered to deciphered bytes. *)
Definition key_holders : Type := certificate -> bytes -> option bytes.

Section Messages.
Variable parse : bytes -> option envelope.
Variable key_size : bytes -> option nat.
Variable unseal : bytes -> bytes -> option bytes.
Variable holder : key_holders.

(** The string [s] is an enveloped message with content [content] for the certificates [cs]: there is a key of the content, every
    recipient named in it finds that key with their own private key, and the key opens the content. *)
Definition enveloped_for (s content : bytes) (cs : list certificate) : Prop :=
  exists e k, parse s = Some e /\ Forall2 named (e_infos e) cs /\
    (forall i c, In i (e_infos e) -> In c cs -> named i c -> holder c (ri_key i) = Some k) /\
    key_size (e_sealed e) = Some (List.length k) /\ unseal k (e_sealed e) = Some content.

(** The certificate is not named in the string, whatever the string is. *)
Definition not_named_in (s : bytes) (c : certificate) : Prop :=
  forall e i, parse s = Some e -> In i (e_infos e) -> ~ named i c.

(** 7.6.4.2: one string for every group of recipients with the same permissions; the content of each is the seed of 20 bytes, the
    same in all, and four bytes of permissions. *)
Record group : Type := { g_string : bytes; g_permissions : bytes; g_certificates : list certificate }.
Definition groups_of (seed : bytes) (gs : list group) : Prop :=
  List.length seed = 20%nat /\
  Forall (fun g => enveloped_for (g_string g) (seed ++ g_permissions g) (g_certificates g) /\ List.length (g_permissions g) = 4%nat) gs.
End Messages.

(** 7.6.4.3: the file key of [n] bytes: the digest of the seed, of all strings in the order of the array and, when metadata is not
    enciphered, of four bytes 255. *)
Definition public_file_key (hash : bytes -> bytes) (n : nat) (seed : bytes) (strings : list bytes) (metadata : bool) : bytes :=
  firstn n (hash (seed ++ concat strings ++ (if metadata then [] else [255; 255; 255; 255]))).

(** The holder of a certificate's private key as the library knows it; [room] is the size of the key's modulus. *)
Definition key_of (holder : key_holders) (room : nat) (c : certificate) : private_key :=
  pkcs12 (Some (issuer c)) (serial c) room (holder c).

(** How a document says that it is protected for the strings [l], with keys of [bits] bits.
    Table 23: the recipients stand in the encryption dictionary for adbe.pkcs7.s3 and adbe.pkcs7.s4, ... *)
Definition says_old (d : list (bytes * obj)) (bits : Z) (l : list bytes) : Prop :=
  exists f s, sm_find (str "Filter") d = Some (OName f) /\ sm_find (str "SubFilter") d = Some (OName s) /\
    (s = str "adbe.pkcs7.s3" \/ s = str "adbe.pkcs7.s4") /\
    (sm_find (str "Length") d = Some (OInt bits) \/ sm_find (str "Length") d = None /\ bits = 40%Z) /\
    exists r, sm_find (str "Recipients") d = Some (OArr r) /\ Forall2 (fun o s => o = OLit s \/ o = OHex s) r l.
(** ... and in a crypt filter for adbe.pkcs7.s5; this is the filter named [name]. *)
Definition says_filter (d : list (bytes * obj)) (name method : bytes) (flt : list (bytes * obj)) (l : list bytes) : Prop :=
  exists f cf, sm_find (str "Filter") d = Some (OName f) /\ sm_find (str "SubFilter") d = Some (OName (str "adbe.pkcs7.s5")) /\
    sm_find (str "CF") d = Some (ODict cf) /\ sm_find name cf = Some (ODict flt) /\
    sm_find (str "CFM") flt = Some (OName method) /\
    exists r, sm_find (str "Recipients") flt = Some (OArr r) /\ Forall2 (fun o s => o = OLit s \/ o = OHex s) r l.

(** The key length in bits that the standard gives a crypt filter, Table 25: fixed for AES, the entry of the filter for RC4. *)
Definition filter_bits (method : bytes) (flt : list (bytes * obj)) (bits : Z) : Prop :=
  method = str "AESV2" /\ bits = 128%Z \/ method = str "AESV3" /\ bits = 256%Z \/
  method = str "V2" /\ sm_find (str "Length") flt = Some (OInt bits).

(** The strings that a document offers to its recipients, wherever they stand. *)
Definition offered (d : list (bytes * obj)) (s : bytes) : Prop :=
  exists r, (In (OLit s) r \/ In (OHex s) r) /\
    (sm_find (str "Recipients") d = Some (OArr r) \/
     exists cf name flt, sm_find (str "CF") d = Some (ODict cf) /\ sm_find name cf = Some (ODict flt) /\
       sm_find (str "Recipients") flt = Some (OArr r)).

(** What encryption should do, written from ISO 32000-1, 7.6 and RFC 5652, without the program's helpers.  MD5 and RC4 themselves are
    taken from Model/Digest.v. *)
From Coq Require Import List NArith ZArith Bool.
From Verif.Model Require Import Base Digest.
Import ListNotations.
Local Open Scope N_scope.

(** The padding string of 7.6.3.3, step (a). *)
Definition standard_padding : bytes :=
  [40; 191; 78; 94; 78; 117; 138; 65; 100; 0; 78; 86; 255; 250; 1; 8;
   46; 46; 0; 182; 208; 104; 62; 128; 47; 12; 169; 254; 100; 83; 105; 122].

(** Exactly 32 bytes: the password, then as much of the padding string as fits. *)
Definition padded_password (p : bytes) : bytes := firstn 32 (p ++ standard_padding).

(** Number [n] in [count] bytes, low-order byte first. *)
Fixpoint low_first (count : nat) (n : N) : bytes :=
  match count with O => [] | S c => n mod 256 :: low_first c (n / 256) end.

Fixpoint times {A : Type} (n : nat) (f : A -> A) (x : A) : A := match n with O => x | S k => f (times k f x) end.

(** Algorithm 1: the key for the data of one object. *)
Definition data_key (key : bytes) (num gen : N) (aes : bool) : bytes :=
  firstn (Nat.min (length key + 5) 16)
    (md5 (key ++ low_first 3 num ++ low_first 2 gen ++ (if aes then [115; 65; 108; 84] else []))).

(** Algorithm 2: the file key of [n] bytes, from the user password, the O entry, the permissions as an unsigned number and the
    first part of the document identifier. *)
Definition file_key (revision : Z) (n : nat) (user o : bytes) (permissions : N) (id : bytes) : bytes :=
  let start := md5 (padded_password user ++ o ++ low_first 4 permissions ++ id) in
  firstn n (if (3 <=? revision)%Z then times 50 (fun d => md5 (firstn n d)) start else start).

(** A key with every byte combined with a counter. *)
Definition with_counter (key : bytes) (i : N) : bytes := map (N.lxor i) key.

(** Twenty passes of RC4 with the counters 0 to 19. *)
Definition twenty_passes (key data : bytes) : bytes := fold_left (fun d i => rc4 (with_counter key i) d) (nrange 0 20) data.

(** Algorithm 3: the O entry. *)
Definition owner_entry (revision : Z) (n : nat) (owner user : bytes) : bytes :=
  let start := md5 (padded_password owner) in
  if (3 <=? revision)%Z then twenty_passes (firstn n (times 50 md5 start)) (padded_password user)
  else rc4 (firstn 5 start) (padded_password user).

(** Algorithms 4 and 5: the U entry, of revision 3 only its first sixteen bytes. *)
Definition user_entry (revision : Z) (key id : bytes) : bytes :=
  if (3 <=? revision)%Z then twenty_passes key (md5 (standard_padding ++ id)) else rc4 key standard_padding.

(** RFC 5652, 6.3: as many bytes as are missing to a multiple of 16, at least one, each holding that number. *)
Definition pkcs7 (data : bytes) : bytes :=
  let missing := (16 - length data mod 16)%nat in data ++ repeat (N.of_nat missing) missing.

(** What is used of AES: on whole blocks, deciphering undoes enciphering, and the length stays. *)
Definition block_cipher (cbc_encrypt cbc_decrypt : bytes -> bytes -> bytes -> bytes) : Prop :=
  forall key iv data, (length key = 16 \/ length key = 32)%nat -> length iv = 16%nat -> (length data mod 16 = 0)%nat ->
    length (cbc_encrypt key iv data) = length data /\ cbc_decrypt key iv (cbc_encrypt key iv data) = data.

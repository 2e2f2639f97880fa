(** C33, C34, C35, C56: encryption. *)
From Coq Require Import List NArith ZArith Bool Lia String.
From Coq Require Import List.
From Verif.Model Require Import Base SMap Object Arith Digest Encryption.
From Verif.Spec Require Import Encryption.
From Verif.Proof Require Import Tac Encryption.
Import ListNotations.
Open Scope N_scope.

(** The digests of RFC 1321, appendix A.5, and a published keystream of RC4: the functions of Model/Digest are these algorithms. *)
Example md5_empty : md5 [] = [0xd4;0x1d;0x8c;0xd9;0x8f;0x00;0xb2;0x04;0xe9;0x80;0x09;0x98;0xec;0xf8;0x42;0x7e].
Proof. vm_compute. reflexivity. Qed.
Example md5_abc : md5 (str "abc") = [0x90;0x01;0x50;0x98;0x3c;0xd2;0x4f;0xb0;0xd6;0x96;0x3f;0x7d;0x28;0xe1;0x7f;0x72].
Proof. vm_compute. reflexivity. Qed.
Example md5_two_blocks : md5 (str "12345678901234567890123456789012345678901234567890123456789012345678901234567890") =
  [0x57;0xed;0xf4;0xa2;0x2b;0xe3;0xc9;0x55;0xac;0x49;0xda;0x2e;0x21;0x07;0xb6;0x7a].
Proof. vm_compute. reflexivity. Qed.
Example rc4_plaintext : rc4 (str "Key") (str "Plaintext") = [0xBB;0xF3;0x16;0xE8;0xD9;0x40;0xAF;0x0A;0xD3].
Proof. vm_compute. reflexivity. Qed.

(** Data enciphered as the standard says (a vector, then the padded data in CBC mode) is deciphered to itself. *)
Theorem C33_standard_ciphertext : forall cbc_encrypt cbc_decrypt key iv data,
  block_cipher cbc_encrypt cbc_decrypt -> (List.length key = 16 \/ List.length key = 32)%nat -> List.length iv = 16%nat ->
  (Z.of_nat (List.length data) + 16 < 2147483647)%Z ->
  aes_decrypt cbc_decrypt key (size_of key) (iv ++ cbc_encrypt key iv (pkcs7 data)) = Ok data.
Proof. intros. now apply aes_decrypt_standard. Qed.

(** What the library itself enciphers comes back with 1 to 16 bytes appended. *)
Theorem C33_data_is_prefix_partial : forall cbc_encrypt cbc_decrypt key iv data,
  block_cipher cbc_encrypt cbc_decrypt -> (List.length key = 16 \/ List.length key = 32)%nat -> List.length iv = 16%nat ->
  data <> [] -> (Z.of_nat (List.length data) + 32 < 2147483647)%Z ->
  exists c n, aes_encrypt cbc_encrypt key (size_of key) iv data = Ok c /\
    aes_decrypt cbc_decrypt key (size_of key) c = Ok (data ++ repeat (N.of_nat n) n) /\
    (1 <= n <= 16)%nat /\ (n mod 16 = List.length data mod 16)%nat.
Proof.
  intros enc dec key iv data Hc Hk Hi Hd Hl. pose proof (add_padding_length data Hd) as Ha.
  eexists. exists (N.to_nat (if size_of data mod 16 =? 0 then 16 else size_of data mod 16)).
  split; [apply aes_encrypt_eq; [exact Hk|exact Hd|lia]|]. split; [|].
  - rewrite aes_decrypt_standard; [|exact Hc|exact Hk|exact Hi|lia]. unfold add_padding. rewrite N2Nat.id. reflexivity.
  - unfold size_of. rewrite nmod_of_nat. pose proof (PeanoNat.Nat.mod_upper_bound (List.length data) 16) as Hm.
    destruct (N.of_nat (List.length data mod 16) =? 0) eqn:E.
    + apply N.eqb_eq in E. split; [lia|]. change (N.to_nat 16) with 16%nat. change (16 mod 16)%nat with 0%nat. lia.
    + apply N.eqb_neq in E. rewrite Nat2N.id. split; [lia|]. apply PeanoNat.Nat.mod_mod. lia.
Qed.

(** So no data at all survives: what is deciphered differs, and empty data cannot be deciphered. *)
Theorem C33_roundtrip_refuted : forall cbc_encrypt cbc_decrypt key iv data,
  block_cipher cbc_encrypt cbc_decrypt -> (List.length key = 16 \/ List.length key = 32)%nat -> List.length iv = 16%nat ->
  (Z.of_nat (List.length data) + 32 < 2147483647)%Z ->
  exists c, aes_encrypt cbc_encrypt key (size_of key) iv data = Ok c /\ aes_decrypt cbc_decrypt key (size_of key) c <> Ok data.
Proof.
  intros enc dec key iv data Hc Hk Hi Hl. destruct data as [|b data].
  - exists []. split; [reflexivity|]. cbn. discriminate.
  - destruct (C33_data_is_prefix_partial enc dec key iv (b :: data) Hc Hk Hi ltac:(discriminate) Hl) as (c & n & E & D & Hn & _).
    exists c. split; [exact E|]. rewrite D. intros Hq. injection Hq as Hq. apply (f_equal (@List.length N)) in Hq.
    rewrite app_length, repeat_length in Hq. lia.
Qed.

(** Keys of another length are refused in both directions. *)
Theorem C33_other_key_lengths : forall cbc_encrypt cbc_decrypt key iv data, size_of key <> 16 -> size_of key <> 32 ->
  (data <> [] -> aes_encrypt cbc_encrypt key (size_of key) iv data = Throw EGeneral) /\
  (size_of data <> 16 -> aes_decrypt cbc_decrypt key (size_of key) data = Throw EGeneral).
Proof.
  intros enc dec key iv data H1 H2. apply N.eqb_neq in H1, H2. unfold aes_encrypt, aes_decrypt. rewrite H1, H2. cbn [orb negb]. split.
  - intros Hd. destruct data; [easy|]. reflexivity.
  - intros Hd. apply N.eqb_neq in Hd. rewrite Hd. destruct (size_of data <? 16); reflexivity.
Qed.

(** The premises hold of a small cipher, and the text "secret" comes back longer. *)
Definition toy (key iv data : bytes) : bytes := map (fun b => N.lxor b (nth 0 key 0)) data.
Example C33_case :
  block_cipher toy toy /\
  rbind (aes_encrypt toy (nrange 7 16) 16 (nrange 1 16) (str "secret")) (aes_decrypt toy (nrange 7 16) 16)
    = Ok (str "secret" ++ [6; 6; 6; 6; 6; 6]).
Proof.
  split; [|vm_compute; reflexivity]. intros key iv data _ _ _. unfold toy. rewrite map_length. split; [reflexivity|].
  rewrite map_map. rewrite <- (map_id data) at 2. apply map_ext. intros a. now rewrite N.lxor_assoc, N.lxor_nilpotent, N.lxor_0_r.
Qed.

(** After encrypting a document with key lengths up to 135 bits the user password opens it, and gives the key the document was
    encrypted with. *)
Theorem C34_user_password_opens : forall s id random, (List.length (s_user s) <= 32)%nat -> (List.length (s_owner s) <= 32)%nat ->
  s_alg s = ARC4 \/ s_alg s = AAES -> (0 <= s_bits s <= 135)%Z -> id <> [] ->
  exists d key, add_encryption s id random = Ok (d, key) /\ forall random', set_password (s_user s) id d random' = Ok (Some key).
Proof.
  intros s id random Hu Hw Ha Hb Hi. assert (Hi' : (0 < List.length id)%nat) by (destruct id; [easy|cbn; lia]).
  set (o := owner_of (s_bits s) (s_owner s) (s_user s)).
  pose proof (proj2 (generate_owner_ok _ _ _ _ Hw Hu Ha Hb)) as Ho. fold o in Ho.
  set (d := dict_of (if (40 <? s_bits s)%Z then 2 else 1)%Z (s_bits s) (rev_of (s_bits s)) o (user_of (s_bits s) id (s_user s) o (s_perm s) random) (s_perm s)).
  assert (Hall : forall r1 r2, set_password (s_user s) id d r1 = set_password (s_user s) id d r2).
  { intros r1 r2. unfold d. rewrite !set_password_eq by (try assumption; try (unfold size_of; lia); try lia).
    assert (Hck : forall input, check_key input id o (user_of (s_bits s) id (s_user s) o (s_perm s) random) (s_perm s) (rev_of (s_bits s)) (s_bits s) r1
      = check_key input id o (user_of (s_bits s) id (s_user s) o (s_perm s) random) (s_perm s) (rev_of (s_bits s)) (s_bits s) r2).
    { intros input. unfold check_key. destruct (digest_part _ _); [|reflexivity..]. cbn [rbind]. unfold rev_of. destruct (40 <? s_bits s)%Z; [|reflexivity].
      change (3 <=? 3)%Z with true. cbv iota. rewrite !compare_v3_ok by lia. cbn [rbind].
      pose proof (compare_of_length (s_bits s) 3 input id o (s_perm s)) as Hcl. change (3 <=? 3)%Z with true in Hcl. cbv iota in Hcl.
      assert (He : forall n a x y u, (n <= List.length a)%nat -> equal_first n (a ++ x) u = equal_first n (a ++ y) u).
      { clear. induction n as [|n IH]; intros a x y u H; [reflexivity|]. destruct a as [|b a]; [cbn in H; lia|]. cbn [app equal_first].
        destruct u; [reflexivity|]. destruct (b =? n0); [|reflexivity]. apply IH. cbn in H. lia. }
      rewrite (He 16%nat _ r1 r2) by lia. reflexivity. }
    rewrite !Hck. reflexivity. }
  destruct (opened_user (if (40 <? s_bits s)%Z then 2 else 1)%Z (s_bits s) o (s_perm s) (s_user s) id random random) as (input & E & _);
    [lia|exact Hu|unfold size_of; lia|exact Hi'|]. fold d in E.
  exists d, (key_of (s_bits s) input id o (s_perm s)). split.
  - rewrite add_encryption_eq by assumption. fold o d. rewrite E. reflexivity.
  - intros random'. rewrite (Hall random' random). exact E.
Qed.

(** With keys of at most 40 bits and with keys of 128 bits the owner password opens it too.  The key is the one the standard
    prescribes; it is also the key of the user password, unless something else than the user password passes the check of the
    user password. *)
Theorem C34_owner_password_opens_partial : forall s id random, (List.length (s_user s) <= 32)%nat -> (List.length (s_owner s) <= 32)%nat ->
  s_alg s = ARC4 \/ s_alg s = AAES -> (0 <= s_bits s <= 40)%Z \/ (128 <= s_bits s <= 135)%Z -> id <> [] ->
  exists d key o u, add_encryption s id random = Ok (d, key) /\ find_string (str "O") d = Ok o /\ find_string (str "U") d = Ok u /\
    let revision := if (40 <? s_bits s)%Z then 3%Z else 2%Z in
    let n := Z.to_nat (s_bits s / 8) in
    let expected := file_key revision n (s_user s) o (Z.to_N (s_perm s mod 2 ^ 32)) id in
    (forall random', set_password (s_owner s) id d random' = Ok (Some expected)) /\
    (key = expected \/ exists other, other <> padded_password (s_user s) /\
       check_key other id o u (s_perm s) revision (s_bits s) random = Ok (Some key)).
Proof.
  intros s id random Hu Hw Ha Hb Hi. assert (Hi' : (0 < List.length id)%nat) by (destruct id; [easy|cbn; lia]).
  assert (Hb' : (0 <= s_bits s <= 135)%Z) by lia.
  set (o := owner_of (s_bits s) (s_owner s) (s_user s)).
  pose proof (proj2 (generate_owner_ok _ _ _ _ Hw Hu Ha Hb')) as Ho. fold o in Ho.
  set (u := user_of (s_bits s) id (s_user s) o (s_perm s) random).
  set (d := dict_of (if (40 <? s_bits s)%Z then 2 else 1)%Z (s_bits s) (rev_of (s_bits s)) o u (s_perm s)).
  assert (Hn : Z.to_nat (s_bits s / 8) = kbytes (s_bits s)).
  { unfold kbytes. rewrite Z.quot_div_nonneg by lia. assert ((s_bits s / 8 <= 16)%Z) by (Z.div_mod_to_equations; lia). lia. }
  destruct (opened_user (if (40 <? s_bits s)%Z then 2 else 1)%Z (s_bits s) o (s_perm s) (s_user s) id random random) as (input & E & Hin);
    [lia|exact Hu|unfold size_of; lia|exact Hi'|]. fold u in E, Hin. fold d in E.
  destruct (dict_of_finds (if (40 <? s_bits s)%Z then 2 else 1)%Z (s_bits s) (rev_of (s_bits s)) o u (s_perm s)) as (_ & Eu & Eo & _). cbn zeta in Eu, Eo. fold d in Eu, Eo.
  exists d, (key_of (s_bits s) input id o (s_perm s)), o, u. split; [|split; [exact Eo|split; [exact Eu|]]].
  - rewrite add_encryption_eq by assumption. fold o u d. rewrite E. reflexivity.
  - cbv zeta. fold (rev_of (s_bits s)). rewrite Hn. change (2 ^ 32)%Z with 4294967296%Z. rewrite <- key_of_standard by exact Hb'. split.
    + intros random'. apply opened_owner; assumption.
    + destruct Hin as [->|(Hne & Hck)]; [left; reflexivity|right]. exists input. split; [exact Hne|exact Hck].
Qed.

(** The O and U entries are the ones of the standard for 40-bit and for 128-bit keys. *)
Theorem C34_standard_entries_partial : forall s id random, (List.length (s_user s) <= 32)%nat -> (List.length (s_owner s) <= 32)%nat ->
  s_alg s = ARC4 \/ s_alg s = AAES -> s_bits s = 40%Z \/ s_bits s = 128%Z -> id <> [] ->
  exists d key, add_encryption s id random = Ok (d, key) /\
    let revision := if (40 <? s_bits s)%Z then 3%Z else 2%Z in
    let n := Z.to_nat (s_bits s / 8) in
    let o := owner_entry revision n (s_owner s) (s_user s) in
    let k := file_key revision n (s_user s) o (Z.to_N (s_perm s mod 2 ^ 32)) id in
    find_string (str "O") d = Ok o /\
    find_string (str "U") d = Ok (user_entry revision k id ++ (if (40 <? s_bits s)%Z then random else [])) /\
    find_integer (str "R") d = Ok revision /\ find_integer (str "P") d = Ok (s_perm s) /\ find_integer (str "Length") d = Ok (s_bits s) /\
    find_name (str "Filter") d = Ok (str "Standard").
Proof.
  intros s id random Hu Hw Ha Hb Hi. assert (Hi' : (0 < List.length id)%nat) by (destruct id; [easy|cbn; lia]).
  assert (Hb' : (0 <= s_bits s <= 135)%Z) by lia.
  set (o := owner_of (s_bits s) (s_owner s) (s_user s)).
  pose proof (proj2 (generate_owner_ok _ _ _ _ Hw Hu Ha Hb')) as Ho. fold o in Ho.
  set (u := user_of (s_bits s) id (s_user s) o (s_perm s) random).
  set (d := dict_of (if (40 <? s_bits s)%Z then 2 else 1)%Z (s_bits s) (rev_of (s_bits s)) o u (s_perm s)).
  assert (Hn : Z.to_nat (s_bits s / 8) = kbytes (s_bits s)).
  { unfold kbytes. rewrite Z.quot_div_nonneg by lia. assert ((s_bits s / 8 <= 16)%Z) by (Z.div_mod_to_equations; lia). lia. }
  destruct (opened_user (if (40 <? s_bits s)%Z then 2 else 1)%Z (s_bits s) o (s_perm s) (s_user s) id random random) as (input & E & Hin);
    [lia|exact Hu|unfold size_of; lia|exact Hi'|]. fold u in E, Hin. fold d in E.
  destruct (dict_of_finds (if (40 <? s_bits s)%Z then 2 else 1)%Z (s_bits s) (rev_of (s_bits s)) o u (s_perm s)) as (Ef & Eu & Eo & Ep & Er & _ & El).
  cbn zeta in *. fold d in Eu, Eo, Ef, Ep, Er, El.
  exists d, (key_of (s_bits s) input id o (s_perm s)). split; [rewrite add_encryption_eq by assumption; fold o u d; rewrite E; reflexivity|].
  fold (rev_of (s_bits s)). rewrite Hn. change (2 ^ 32)%Z with 4294967296%Z. rewrite <- owner_of_standard by lia. fold o.
  rewrite <- key_of_standard by exact Hb'. rewrite <- user_of_standard by lia. fold u.
  split; [exact Eo|]. split; [exact Eu|]. split; [exact Er|]. split; [exact Ep|]. split; [|exact Ef]. reflexivity.
Qed.

(** With 64-bit keys the owner password does not open the document. *)
Theorem C34_owner_password_refuted : exists s id random d key,
  s_bits s = 64%Z /\ add_encryption s id random = Ok (d, key) /\ set_password (s_user s) id d random = Ok (Some key) /\
  set_password (s_owner s) id d random = Ok None.
Proof.
  exists {| s_user := str "user"; s_owner := str "owner"; s_alg := ARC4; s_bits := 64; s_perm := -4 |}, (nrange 1 16), (nrange 0 16).
  eexists. eexists. split; [reflexivity|]. split; [vm_compute; reflexivity|]. split; vm_compute; reflexivity.
Qed.

(** A password of more than 32 bytes, or a key of more than 135 bits, makes the library read or write outside its buffers. *)
Theorem C34_long_password_refuted : forall s id random, s_alg s = ARC4 \/ s_alg s = AAES -> id <> [] ->
  (32 < List.length (s_owner s))%nat -> add_encryption s id random = Undef.
Proof.
  intros s id random Ha Hi Hl. unfold add_encryption. rewrite (proj2 (N.eqb_neq _ _)) by (unfold size_of; destruct id; [easy|cbn; lia]).
  unfold generate_owner. destruct Ha as [->| ->]; rewrite pad_long by exact Hl; reflexivity.
Qed.
Theorem C34_long_key_refuted : forall s id random, s_alg s = ARC4 \/ s_alg s = AAES -> id <> [] ->
  (List.length (s_user s) <= 32)%nat -> (List.length (s_owner s) <= 32)%nat -> (136 <= s_bits s <= 2147483647)%Z -> add_encryption s id random = Undef.
Proof.
  intros s id random Ha Hi Hu Hw Hb. unfold add_encryption. rewrite (proj2 (N.eqb_neq _ _)) by (unfold size_of; destruct id; [easy|cbn; lia]).
  rewrite (proj2 (Z.ltb_lt _ _)) by lia. assert (HE : generate_owner (s_owner s) (s_user s) (s_alg s) (s_bits s) 3 = Undef); [|rewrite HE; reflexivity].
  assert (HE : generate_owner (s_owner s) (s_user s) ARC4 (s_bits s) 3 = Undef); [|destruct Ha as [->| ->]; exact HE].
  unfold generate_owner. rewrite (proj1 (pad_ok _ Hw)), (proj1 (pad_ok _ Hu)). cbn [rbind]. change (3 <=? 3)%Z with true. cbv iota.
  assert (Hq : (17 <= Z.quot (s_bits s) 8 <= 268435455)%Z) by (rewrite Z.quot_div_nonneg by lia; Z.div_mod_to_equations; lia).
  rewrite to_size by lia. cbn [rbind]. unfold rc4_n. rewrite to_int by lia. cbn [rbind]. rewrite (proj2 (N.eqb_neq _ _)) by lia.
  rewrite (proj2 (N.ltb_lt _ _)); [reflexivity|]. unfold size_of. rewrite iterate_md5_length. lia.
Qed.

Example C34_case :
  let s := {| s_user := str "user"; s_owner := str "owner"; s_alg := ARC4; s_bits := 128; s_perm := -4 |} in
  exists d key, add_encryption s (nrange 1 16) (nrange 0 16) = Ok (d, key) /\
    set_password (str "user") (nrange 1 16) d (nrange 0 16) = Ok (Some key) /\
    set_password (str "owner") (nrange 1 16) d (nrange 0 16) = Ok (Some key) /\
    set_password (str "guess") (nrange 1 16) d (nrange 0 16) = Ok None /\ List.length key = 16%nat.
Proof.
  cbv zeta. eexists. eexists. split; [vm_compute; reflexivity|]. split; [vm_compute; reflexivity|]. split; [vm_compute; reflexivity|].
  split; vm_compute; reflexivity.
Qed.

(** The key of an object is the one of the standard. *)
Theorem C35_object_key : forall key num gen alg, object_key key num gen alg = data_key key num gen (is_aes alg).
Proof. exact object_key_standard. Qed.

(** Strings and streams of an object that is in use, is not the encryption dictionary and is not in an object stream: what was
    encrypted under any algorithm but AES is decrypted to itself. *)
Theorem C35_roundtrip_partial : forall cbc_encrypt cbc_decrypt c which iv data num gen alg key,
  which = str "StmF" \/ which = str "StrF" -> data_algorithm (c_dict c) which = Ok alg -> alg <> AAES ->
  current_key c = Ok key -> c_compressed c num gen = Some false -> is_place c num gen = false -> num <> 0 ->
  (Z.of_nat (List.length data) < 2147483647)%Z ->
  encrypt_with cbc_encrypt which c iv data num gen = Ok (rc4 (data_key key num gen false) data) /\
  decrypt_with cbc_decrypt which c (rc4 (data_key key num gen false) data) num gen = Ok data.
Proof.
  intros enc dec c which iv data num gen alg key _ Ealg Hna Ek Eu Ep Hn Hl. unfold encrypt_with, decrypt_with. rewrite Ealg. cbn [rbind].
  assert (Haes : is_aes alg = false) by (destruct alg; [reflexivity|reflexivity|easy|reflexivity]).
  assert (Hk : object_key key num gen alg = data_key key num gen false) by (rewrite object_key_standard, Haes; reflexivity).
  assert (Hkl : List.length (data_key key num gen false) = Nat.min (List.length key + 5) 16) by (rewrite <- Hk; apply object_key_length).
  set (k := data_key key num gen false) in *. split.
  - unfold encrypt_data. rewrite Ek. cbn [rbind]. rewrite Ep. replace (match c_place c with Some _ => num =? 0 | None => false end) with false.
    2: { destruct (c_place c); [|reflexivity]. symmetry. now apply N.eqb_neq. }
    cbn [orb]. rewrite Haes, andb_false_r, Hk. apply compute_rc4_ok; [lia|lia|unfold size_of; lia].
  - unfold decrypt_data. destruct data as [|b data'] eqn:Ed.
    { pose proof (rc4_length k []) as H0. destruct (rc4 k []); [reflexivity|discriminate]. }
    rewrite <- Ed in *. assert (Hs : size_of (rc4 k data) = size_of data) by (unfold size_of; now rewrite rc4_length).
    rewrite (proj2 (N.eqb_neq _ _)) by (rewrite Hs; unfold size_of; rewrite Ed; cbn; lia).
    rewrite Ep, Eu, Ek. cbn [rbind]. rewrite Haes, andb_false_r, Hk.
    rewrite compute_rc4_ok; [now rewrite rc4_twice|lia|lia|]. rewrite Hs. unfold size_of. lia.
Qed.

(** Under AES every non-empty string and stream comes back longer. *)
Theorem C35_aes_refuted : forall cbc_encrypt cbc_decrypt c which iv data num gen key,
  block_cipher cbc_encrypt cbc_decrypt -> List.length iv = 16%nat ->
  data_algorithm (c_dict c) which = Ok AAES -> current_key c = Ok key -> List.length key = 16%nat ->
  c_compressed c num gen = Some false -> is_place c num gen = false -> num <> 0 ->
  data <> [] -> (Z.of_nat (List.length data) + 32 < 2147483647)%Z ->
  exists e n, encrypt_with cbc_encrypt which c iv data num gen = Ok e /\ (1 <= n <= 16)%nat /\
    decrypt_with cbc_decrypt which c e num gen = Ok (data ++ repeat (N.of_nat n) n).
Proof.
  intros enc dec c which iv data num gen key Hc Hi Ealg Ek Hkl Eu Ep Hn Hd Hl.
  assert (Hok : List.length (object_key key num gen AAES) = 16%nat) by (rewrite object_key_length; lia).
  destruct (C33_data_is_prefix_partial enc dec (object_key key num gen AAES) iv data Hc (or_introl Hok) Hi Hd Hl) as (e & n & E & D & H1 & _).
  exists e, n. unfold encrypt_with, decrypt_with. rewrite Ealg. cbn [rbind]. split; [|split; [exact H1|]].
  - unfold encrypt_data. rewrite Ek. cbn [rbind]. rewrite Ep. replace (match c_place c with Some _ => num =? 0 | None => false end) with false.
    2: { destruct (c_place c); [|reflexivity]. symmetry. now apply N.eqb_neq. }
    cbn [orb is_aes]. rewrite (proj2 (N.eqb_neq _ _)) by (unfold size_of; lia). cbn [andb]. exact E.
  - assert (He : size_of e <> 0).
    { intros He. unfold aes_decrypt in D. rewrite He in D. discriminate. }
    unfold decrypt_data. rewrite (proj2 (N.eqb_neq _ _)) by exact He. rewrite Ep, Eu, Ek. cbn [rbind is_aes].
    rewrite (proj2 (N.eqb_neq _ _)) by (unfold size_of; lia). cbn [andb]. exact D.
Qed.

(** Streams that the encryption dictionary leaves as they are (the filter named Identity) are changed. *)
Theorem C35_identity_refuted : exists c data, forall cbc_encrypt cbc_decrypt iv,
  find_name (str "StmF") (c_dict c) = Ok (str "Identity") /\
  encrypt_stream cbc_encrypt c iv data 7 0 <> Ok data /\ decrypt_stream cbc_decrypt c data 7 0 <> Ok data.
Proof.
  exists {| c_dict := [(str "StmF", OName (str "Identity")); (str "V", OInt 4)]; c_place := None; c_key := Some (nrange 1 16);
            c_empty_password := Ok None; c_compressed := fun _ _ => Some false |}, (str "text").
  intros enc dec iv. split; [reflexivity|]. split; vm_compute; discriminate.
Qed.

Example C35_case :
  let c := {| c_dict := [(str "V", OInt 2)]; c_place := Some (9, 0); c_key := Some (nrange 1 16);
              c_empty_password := Ok None; c_compressed := fun _ _ => Some false |} in
  data_algorithm (c_dict c) (str "StmF") = Ok ARC4 /\
  rbind (encrypt_stream toy c [] (str "text") 7 0) (fun e => decrypt_stream toy c e 7 0) = Ok (str "text") /\
  encrypt_stream toy c [] (str "text") 7 0 <> Ok (str "text") /\ encrypt_stream toy c [] (str "text") 9 0 = Ok (str "text").
Proof.
  cbv zeta. split; [reflexivity|]. split; [vm_compute; reflexivity|]. split; [vm_compute; discriminate|vm_compute; reflexivity].
Qed.

(** Whatever algorithm is chosen, strings and streams of the document are encrypted with RC4: right when RC4 was chosen... *)
Theorem C56_rc4_chosen : forall s id random d key which, add_encryption s id random = Ok (d, key) -> s_alg s = ARC4 ->
  data_algorithm d which = Ok ARC4.
Proof.
  intros s id random d key which E _. unfold add_encryption in E. destruct (size_of id =? 0); [discriminate|].
  destruct (generate_owner _ _ _ _ _); [|discriminate..]. cbn [rbind] in E. destruct (generate_user _ _ _ _ _ _ _ _); [|discriminate..].
  cbn [rbind] in E. destruct (set_password _ _ _ _) as [[k|]| | |]; [|discriminate..]. cbn [rbind] in E. injection E as <- _.
  unfold data_algorithm. cbv [fold_left]. destruct (40 <? s_bits s)%Z; reflexivity.
Qed.
(** ... and wrong whenever AES was. *)
Theorem C56_aes_chosen_refuted : forall s id random d key which, add_encryption s id random = Ok (d, key) -> s_alg s = AAES ->
  data_algorithm d which = Ok ARC4.
Proof.
  intros s id random d key which E _. unfold add_encryption in E. destruct (size_of id =? 0); [discriminate|].
  destruct (generate_owner _ _ _ _ _); [|discriminate..]. cbn [rbind] in E. destruct (generate_user _ _ _ _ _ _ _ _); [|discriminate..].
  cbn [rbind] in E. destruct (set_password _ _ _ _) as [[k|]| | |]; [|discriminate..]. cbn [rbind] in E. injection E as <- _.
  unfold data_algorithm. cbv [fold_left]. destruct (40 <? s_bits s)%Z; reflexivity.
Qed.
Example C56_case : exists d key,
  add_encryption {| s_user := str "u"; s_owner := str "o"; s_alg := AAES; s_bits := 128; s_perm := -4 |} (nrange 1 16) (nrange 0 16) = Ok (d, key).
Proof. eexists. eexists. vm_compute. reflexivity. Qed.

Print Assumptions C33_standard_ciphertext.
Print Assumptions C33_data_is_prefix_partial.
Print Assumptions C33_roundtrip_refuted.
Print Assumptions C33_other_key_lengths.
Print Assumptions C34_user_password_opens.
Print Assumptions C34_owner_password_opens_partial.
Print Assumptions C34_standard_entries_partial.
Print Assumptions C34_owner_password_refuted.
Print Assumptions C34_long_password_refuted.
Print Assumptions C34_long_key_refuted.
Print Assumptions C35_object_key.
Print Assumptions C35_roundtrip_partial.
Print Assumptions C35_aes_refuted.
Print Assumptions C35_identity_refuted.
Print Assumptions C56_rc4_chosen.
Print Assumptions C56_aes_chosen_refuted.

(** Passwords, object keys and encryption of data: syntax/utils/encryption.cpp, the password and data functions of
    syntax/files/file.cpp, and Document::AddEncryption of semantics/objects/document.cpp.

    OpenSSL is outside: MD5 and RC4 are the functions of Model/Digest.v; AES in CBC mode is a pair of parameters, and so are the
    random bytes (RAND_bytes).  Failures of OpenSSL's own calls are not modelled.  Public-key security handlers are in
    Model/PubKey.v; the licence check of AddEncryption is not modelled. *)
From Coq Require Import List NArith ZArith Bool String.
From Coq Require Import List.
From Verif.Model Require Import Base SMap Object Arith Digest.
Import ListNotations.
Local Open Scope N_scope.

Definition size_of (s : bytes) : N := N.of_nat (List.length s).

(** HARDCODED_PDF_PAD, encryption.cpp:33-42 *)
Definition pdf_pad : bytes :=
  [0x28; 0xBF; 0x4E; 0x5E; 0x4E; 0x75; 0x8A; 0x41; 0x64; 0x00; 0x4E; 0x56; 0xFF; 0xFA; 0x01; 0x08;
   0x2E; 0x2E; 0x00; 0xB6; 0xD0; 0x68; 0x3E; 0x80; 0x2F; 0x0C; 0xA9; 0xFE; 0x64; 0x53; 0x69; 0x7A].
(** AES_ADDITIONAL_SALT, encryption.cpp:44-46 *)
Definition aes_salt : bytes := [0x73; 0x41; 0x6C; 0x54].

(** EncryptionAlgorithm, syntax/utils/encryption.h *)
Inductive algorithm : Set := ANone | ARC4 | AAES | AUndefined.
Definition is_aes (a : algorithm) : bool := match a with AAES => true | _ => false end.

(** ComputeObjectKey, encryption.cpp:51-126.  The copy at the end stays inside the sixteen bytes. *)
Definition object_info (num gen : N) : bytes :=
  [N.land num 255; N.land (N.shiftr num 8) 255; N.land (N.shiftr num 16) 255; N.land gen 255; N.land (N.shiftr gen 8) 255].
Definition object_key (key : bytes) (num gen : N) (alg : algorithm) : bytes :=
  let digest := md5 (key ++ object_info num gen ++ (if is_aes alg then aes_salt else [])) in
  firstn (N.to_nat (N.min (size_of key + 5) 16)) digest.

(** PadTruncatePassword, encryption.cpp:128-134.  A password longer than 32 bytes makes the second count wrap and the second
    destination lie behind the result. *)
Definition pad_password (password : bytes) : res bytes :=
  if size_of password <=? 32 then Ok (password ++ firstn (32 - List.length password) pdf_pad) else Undef.

(** ComputeRC4 with a key length, encryption.cpp:140-224.  OpenSSL reads [n] bytes of the key.  What OpenSSL does with an empty key
    differs between versions and is not modelled. *)
Definition rc4_n (key : bytes) (n : N) (data : bytes) : res bytes :=
  do _ <- safe_convert int32_t uint64_t (Z.of_N n);;
  if n =? 0 then Throw ENotModelled
  else if size_of key <? n then Undef
  else
    do _ <- safe_convert int32_t uint64_t (Z.of_N (size_of data));;
    Ok (rc4 (firstn (N.to_nat n) key) data).
(** ComputeRC4 with the whole key, encryption.cpp:136-138 *)
Definition compute_rc4 (key data : bytes) : res bytes := rc4_n key (size_of key) data.

Fixpoint iterate {A : Type} (n : nat) (f : A -> A) (x : A) : A :=
  match n with O => x | S k => iterate k f (f x) end.

(** every byte of the key combined with a counter, as in encryption.cpp:599-602, 787-791, 1186-1190 *)
Definition xor_key (key : bytes) (i : N) : bytes := map (fun b => N.lxor b i) key.

(** successive RC4 passes with the key combined with the given counters *)
Fixpoint rc4_passes (key : bytes) (counters : list N) (data : bytes) : res bytes :=
  match counters with
  | [] => Ok data
  | i :: t => do next <- compute_rc4 (xor_key key i) data;; rc4_passes key t next
  end.

(** the first [n] bytes replaced by the first bytes of their digest, as in encryption.cpp:725-749 and 1150-1174 *)
Definition hash_prefix (n : nat) (digest : bytes) : bytes := firstn n (md5 (firstn n digest)) ++ skipn n digest.

(** SafeConvert<size_t>(key_length / 8) and the minimum with the digest length; C++ division rounds towards zero *)
Definition length_bytes (key_length : Z) : res N := do n <- safe_convert uint64_t int32_t (Z.quot key_length 8);; Ok (Z.to_N n).
Definition digest_part (key_length : Z) (digest : bytes) : res nat :=
  do n <- length_bytes key_length;; Ok (N.to_nat (N.min n (size_of digest))).

(** GenerateOwnerEncryptionKey, encryption.cpp:533-619 *)
Definition generate_owner (owner user : bytes) (alg : algorithm) (key_length revision : Z) : res bytes :=
  match alg with
  | AUndefined | ANone => Throw EGeneral
  | ARC4 | AAES =>
      do padded <- pad_password owner;;
      let stepb := md5 padded in
      let stepc := if (3 <=? revision)%Z then iterate 50 md5 stepb else stepb in
      let n := if (3 <=? revision)%Z then Z.quot key_length 8 else 5%Z in
      do padded_user <- pad_password user;;
      do n' <- safe_convert uint64_t int32_t n;;
      do stepf <- rc4_n stepc (Z.to_N n') padded_user;;
      if (3 <=? revision)%Z then rc4_passes stepc (nrange 1 19) stepf else Ok stepf
  end.

(** CalculateDecryptionKeyDigest, encryption.cpp:813-880; the permissions are an unsigned 32-bit number *)
Definition key_digest (input id owner_data : bytes) (permissions : Z) : bytes :=
  md5 (input ++ owner_data ++ le_bytes 4 (Z.to_N (wrap uint32_t permissions)) ++ id).

(** CalculateDecryptionCompareDataV3, encryption.cpp:705-811: it also changes the digest it is given *)
Definition compare_data_v3 (digest id : bytes) (key_length : Z) (random : bytes) : res (bytes * bytes) :=
  do n <- digest_part key_length digest;;
  let digest' := iterate 50 (hash_prefix n) digest in
  let start := md5 (pdf_pad ++ id) in
  do first <- compute_rc4 digest' start;;
  do last <- rc4_passes digest' (nrange 1 19) first;;
  Ok (digest', last ++ random).

(** GenerateUserEncryptionKey, encryption.cpp:621-661 *)
Definition generate_user (id user owner_data : bytes) (alg : algorithm) (key_length permissions revision : Z) (random : bytes) : res bytes :=
  match alg with
  | AUndefined | ANone => Throw EGeneral
  | ARC4 | AAES =>
      do padded <- pad_password user;;
      let digest := key_digest padded id owner_data permissions in
      if (3 <=? revision)%Z then do ' (_, data) <- compare_data_v3 digest id key_length random;; Ok data
      else rc4_n digest 5 pdf_pad
  end.

(** std::equal of the first [n] bytes; reading behind the end of either buffer is undefined *)
Fixpoint equal_first (n : nat) (a b : bytes) : res bool :=
  match n with
  | O => Ok true
  | S k =>
      match a, b with
      | x :: a', y :: b' => if x =? y then equal_first k a' b' else Ok false
      | _, _ => Undef
      end
  end.

(** CheckKey, encryption.cpp:663-703: the file key when the password is right *)
Definition check_key (input id owner_data user_data : bytes) (permissions revision key_length : Z) (random : bytes) : res (option bytes) :=
  let digest := key_digest input id owner_data permissions in
  do n <- digest_part key_length digest;;
  do ' (digest', data) <- (if (3 <=? revision)%Z then compare_data_v3 digest id key_length random
                          else do data <- rc4_n digest 5 pdf_pad;; Ok (digest, data));;
  do same <- equal_first (if (3 <=? revision)%Z then 16%nat else 32%nat) data user_data;;
  Ok (if same then Some (firstn n digest') else None).

(** FindAs of the entries; references, which would be followed, and real numbers are not modelled *)
Definition dict := list (bytes * obj).
Definition find_integer (k : bytes) (d : dict) : res Z :=
  match sm_find k d with
  | Some (OInt z) => Ok z
  | Some (ORef _ _) | Some (OReal _ _ _) => Throw ENotModelled
  | Some _ => Throw EConversion
  | None => Throw EGeneral
  end.
Definition find_string (k : bytes) (d : dict) : res bytes :=
  match sm_find k d with
  | Some (OLit s) | Some (OHex s) => Ok s
  | Some (ORef _ _) => Throw ENotModelled
  | Some _ => Throw EConversion
  | None => Throw EGeneral
  end.
Definition find_name (k : bytes) (d : dict) : res bytes :=
  match sm_find k d with
  | Some (OName n) => Ok n
  | Some (ORef _ _) => Throw ENotModelled
  | Some _ => Throw EConversion
  | None => Throw EGeneral
  end.
Definition find_dict (k : bytes) (d : dict) : res dict :=
  match sm_find k d with
  | Some (ODict l) => Ok l
  | Some (ORef _ _) => Throw ENotModelled
  | Some _ => Throw EConversion
  | None => Throw EGeneral
  end.
Definition find_length_bits (d : dict) : res Z := if sm_contains (str "Length") d then find_integer (str "Length") d else Ok 40%Z.

(** ComputeAuthenticationOwnerData, encryption.cpp:1097-1210 *)
Definition owner_recovered (padded : bytes) (d : dict) : res bytes :=
  do _ <- find_string (str "U") d;;
  do owner_data <- find_string (str "O") d;;
  do _ <- find_integer (str "P") d;;
  do revision <- find_integer (str "R") d;;
  do _ <- find_integer (str "V") d;;
  do bits <- find_length_bits d;;
  let digest := md5 padded in
  if (3 <=? revision)%Z then
    do n <- (do n <- safe_convert uint64_t int64_t (Z.quot bits 8);; Ok (N.to_nat (N.min (Z.to_N n) (size_of digest))));;
    rc4_passes (iterate 50 (hash_prefix n) digest) (rev (nrange 0 20)) owner_data
  else rc4_n digest 5 owner_data.

(** File::SetEncryptionPassword of an encrypted file, file.cpp:325-424: the new file key, or [None] when the password is wrong.  The
    document identifier is the first of the two; that it is there and is a string is taken for granted. *)
Definition set_password (password id : bytes) (d : dict) (random : bytes) : res (option bytes) :=
  if size_of id =? 0 then Throw EGeneral
  else
    do filter <- find_name (str "Filter") d;;
    if negb (beq filter (str "Standard")) then Ok None
    else
      do user_data <- find_string (str "U") d;;
      do owner_data <- find_string (str "O") d;;
      do permissions <- find_integer (str "P") d;;
      do revision <- find_integer (str "R") d;;
      do _ <- find_integer (str "V") d;;
      do bits <- find_length_bits d;;
      do revision' <- safe_convert int32_t int64_t revision;;
      do bits' <- safe_convert int32_t int64_t bits;;
      do padded <- pad_password password;;
      do recovered <- owner_recovered padded d;;
      do first <- check_key recovered id owner_data user_data permissions revision' bits' random;;
      match first with
      | Some key => Ok (Some key)
      | None => check_key padded id owner_data user_data permissions revision' bits' random
      end.

(** DocumentEncryptionSettings, semantics/utils/document_encryption_settings.h; the permissions as the 32-bit number that
    GetPermissionInteger makes of the flags *)
Record settings : Set := { s_user : bytes; s_owner : bytes; s_alg : algorithm; s_bits : Z; s_perm : Z }.

(** Document::AddEncryption, document.cpp:828-959: the encryption dictionary and the file key.  The document is not encrypted yet and
    [id] is its identifier; allocating the object and the entry in the trailer are left out. *)
Definition add_encryption (s : settings) (id random : bytes) : res (dict * bytes) :=
  if size_of id =? 0 then Throw EGeneral
  else
    let version := if (40 <? s_bits s)%Z then 2%Z else 1%Z in
    let revision := if (40 <? s_bits s)%Z then 3%Z else 2%Z in
    do owner_data <- generate_owner (s_owner s) (s_user s) (s_alg s) (s_bits s) revision;;
    do user_data <- generate_user id (s_user s) owner_data (s_alg s) (s_bits s) (s_perm s) revision random;;
    let d := fold_left (fun m kv => sm_insert (fst kv) (snd kv) m)
      [(str "Filter", OName (str "Standard")); (str "V", OInt version); (str "Length", OInt (s_bits s)); (str "R", OInt revision);
       (str "O", OHex owner_data); (str "U", OHex user_data); (str "P", OInt (s_perm s))] [] in
    do key <- set_password (s_user s) id d random;;
    match key with
    | Some k => Ok (d, k)
    | None => Throw EGeneral
    end.

(** AddPkcs7Padding, encryption.cpp:478-492 *)
Definition add_padding (data : bytes) : bytes :=
  let remaining := size_of data mod 16 in
  let remaining := if remaining =? 0 then 16 else remaining in
  data ++ repeat remaining (N.to_nat remaining).

(** RemovePkcs7Padding, encryption.cpp:494-531 *)
Definition remove_padding (data : bytes) : bytes :=
  match rev data with
  | [] => data
  | last :: _ =>
      if (size_of data <? last) || (16 <? last) then data
      else
        let keep := N.to_nat (size_of data - last) in
        if forallb (N.eqb last) (skipn keep data) then firstn keep data else data
  end.

Section Aes.
(** EVP_aes_128_cbc / EVP_aes_256_cbc on whole blocks: key, initialization vector, data *)
Variables cbc_encrypt cbc_decrypt : bytes -> bytes -> bytes -> bytes.

(** What OpenSSL appends to the data of EVP_EncryptUpdate when padding was not switched off: 1 to 16 bytes of that value *)
Definition openssl_padding (data : bytes) : bytes :=
  let missing := 16 - size_of data mod 16 in
  data ++ repeat missing (N.to_nat missing).

(** AESEncrypt, encryption.cpp:377-476, with the random initialization vector; padding is not switched off, so OpenSSL pads what
    AddPkcs7Padding has padded.  A key shorter than its length would be read behind its end. *)
Definition aes_encrypt (key : bytes) (key_length : N) (iv data : bytes) : res bytes :=
  if size_of data =? 0 then Ok []
  else if negb ((key_length =? 16) || (key_length =? 32)) then Throw EGeneral
  else if size_of key <? key_length then Undef
  else
    do _ <- safe_convert int32_t uint64_t (Z.of_N (size_of (add_padding data)));;
    Ok (iv ++ cbc_encrypt (firstn (N.to_nat key_length) key) iv (openssl_padding (add_padding data))).

(** AESDecrypt, encryption.cpp:270-375; with padding switched off EVP_DecryptFinal fails when a block is not complete *)
Definition aes_decrypt (key : bytes) (key_length : N) (data : bytes) : res bytes :=
  if size_of data <? 16 then Throw EGeneral
  else if size_of data =? 16 then Ok []
  else if negb ((key_length =? 16) || (key_length =? 32)) then Throw EGeneral
  else if size_of key <? key_length then Undef
  else
    do _ <- safe_convert int32_t uint64_t (Z.of_N (size_of data - 16));;
    if negb ((size_of data - 16) mod 16 =? 0) then Throw EGeneral
    else Ok (remove_padding (cbc_decrypt (firstn (N.to_nat key_length) key) (firstn 16 data) (skipn 16 data))).

(** An encrypted file: its encryption dictionary, the object number and generation of that dictionary when it is an indirect object,
    the file key ([None] as long as no password was given), the outcome of trying the empty password, and the use of an object
    in the cross-reference chain ([None]: no entry, [Some true]: in an object stream). *)
Record crypt := {
  c_dict : dict;
  c_place : option (N * N);
  c_key : option bytes;
  c_empty_password : res (option bytes);
  c_compressed : N -> N -> option bool
}.

(** GetEncryptionAlgorithmForFilter, file.cpp:667-695 *)
Definition filter_algorithm (d : dict) (name : bytes) : res algorithm :=
  do version <- find_integer (str "V") d;;
  if negb ((version =? 4) || (version =? 5))%Z then Ok ANone
  else if negb (sm_contains (str "CF") d) then Ok ANone
  else
    do filters <- find_dict (str "CF") d;;
    if negb (sm_contains name filters) then Ok ANone
    else
      do filter <- find_dict name filters;;
      if negb (sm_contains (str "CFM") filter) then Ok ANone
      else
        do method <- find_name (str "CFM") filter;;
        if beq method (str "AESV2") || beq method (str "AESV3") then Ok AAES
        else if beq method (str "V2") then Ok ARC4
        else Ok ANone.

Definition is_place (c : crypt) (num gen : N) : bool :=
  match c_place c with Some (n, g) => (n =? num) && (g =? gen) | None => false end.
Definition current_key (c : crypt) : res bytes :=
  match c_key c with
  | Some k => Ok k
  | None => do r <- c_empty_password c;; match r with Some k => Ok k | None => Throw EPassword end
  end.

(** File::DecryptData, file.cpp:485-567 *)
Definition decrypt_data (c : crypt) (data : bytes) (num gen : N) (alg : algorithm) : res bytes :=
  if size_of data =? 0 then Ok []
  else if is_place c num gen then Ok data
  else
    match c_compressed c num gen with
    | None => Throw EObjectMissing
    | Some true => Ok data
    | Some false =>
        do key <- current_key c;;
        if (size_of key =? 32) && is_aes alg then aes_decrypt key 32 data
        else
          let k := object_key key num gen alg in
          if is_aes alg then aes_decrypt k (size_of k) data else compute_rc4 k data
    end.

(** File::EncryptData, file.cpp:618-665; [iv] is what RAND_bytes gives *)
Definition encrypt_data (c : crypt) (iv data : bytes) (num gen : N) (alg : algorithm) : res bytes :=
  do key <- current_key c;;
  if (match c_place c with Some _ => num =? 0 | None => false end) || is_place c num gen then Ok data
  else if (size_of key =? 32) && is_aes alg then aes_encrypt key 32 iv data
  else
    let k := object_key key num gen alg in
    if is_aes alg then aes_encrypt k (size_of k) iv data else compute_rc4 k data.

(** DecryptStream, DecryptString, EncryptStream and EncryptString, file.cpp:436-483 and 569-605; [key_name] is StmF or StrF *)
Definition data_algorithm (d : dict) (key_name : bytes) : res algorithm :=
  do version <- find_integer (str "V") d;;
  if ((version =? 4) || (version =? 5))%Z then
    do name <- find_name key_name d;; filter_algorithm d name
  else Ok ARC4.
Definition decrypt_with (key_name : bytes) (c : crypt) (data : bytes) (num gen : N) : res bytes :=
  do alg <- data_algorithm (c_dict c) key_name;; decrypt_data c data num gen alg.
Definition encrypt_with (key_name : bytes) (c : crypt) (iv data : bytes) (num gen : N) : res bytes :=
  do alg <- data_algorithm (c_dict c) key_name;; encrypt_data c iv data num gen alg.
Definition decrypt_stream := decrypt_with (str "StmF").
Definition decrypt_string := decrypt_with (str "StrF").
Definition encrypt_stream := encrypt_with (str "StmF").
Definition encrypt_string := encrypt_with (str "StrF").
End Aes.

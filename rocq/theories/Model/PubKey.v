(** Documents that are protected for the holders of certificates: File::SetEncryptionKey of syntax/files/file.cpp, GetRecipientKey and
    DecryptEnvelopedData of syntax/utils/encryption.cpp, Decrypt and ContainsPrivateKey of utils/pkcs12_key.cpp.

    OpenSSL is outside: the PKCS#7 parser, the ciphers of the content, the private key and SHA-1 and SHA-256 are parameters.  Failures
    of OpenSSL's allocations are not modelled.  References inside the encryption dictionary are not followed (Model/Encryption.v), and
    the strings of the recipients are taken as they stand in the file, as Model/Exempt.v has them. *)
From Coq Require Import List NArith ZArith Bool String.
From Coq Require Import List.
From Verif.Model Require Import Base SMap Object Arith Encryption.
Import ListNotations.
Local Open Scope N_scope.

(** PKCS7_RECIP_INFO: the issuer as X509_NAME_oneline prints it ([None] when it cannot), the bytes of the serial number, and the key
    of the content as it is enciphered for this recipient *)
Record recipient_info : Type := { ri_issuer : option bytes; ri_serial : bytes; ri_key : bytes }.
(** PKCS7_ENVELOPE: the recipients, and the content with its algorithm *)
Record envelope : Type := { e_infos : list recipient_info; e_sealed : bytes }.

(** IEncryptionKey, utils/encryption.h: a key that the caller gives *)
Record private_key : Type := { k_contains : bytes -> bytes -> bool; k_decrypt : bytes -> res bytes }.

(** PKCS12Key: ContainsPrivateKey, pkcs12_key.cpp:231-259, compares the issuer and the serial number of the certificate; Decrypt,
    182-229, returns a buffer of the length that was asked for first, which the deciphered bytes need not fill.  [room] is that
    length, [opened] what EVP_PKEY_decrypt writes. *)
Definition pkcs12 (issuer : option bytes) (serial : bytes) (room : nat) (opened : bytes -> option bytes) : private_key :=
  {| k_contains := fun i s => match issuer with Some own => beq own i && beq serial s | None => false end;
     k_decrypt := fun data => match opened data with
                              | Some k => Ok (k ++ repeat 0 (room - List.length k))
                              | None => Throw EGeneral
                              end |}.

(** FindAs<ArrayObjectPtr<StringObjectPtr>>: the elements are converted when they are used, array_object.h:272-279 *)
Definition find_array (k : bytes) (d : dict) : res (list obj) :=
  match sm_find k d with
  | Some (OArr l) => Ok l
  | Some (ORef _ _) => Throw ENotModelled
  | Some _ => Throw EConversion
  | None => Throw EGeneral
  end.
Definition as_string (o : obj) : res bytes :=
  match o with
  | OLit s | OHex s => Ok s
  | ORef _ _ => Throw ENotModelled
  | _ => Throw EConversion
  end.

Section OpenSSL.
(** d2i_PKCS7_bio with PKCS7_type_is_enveloped *)
Variable parse : bytes -> option envelope.
(** EVP_get_cipherbyobj and EVP_CIPHER_asn1_to_param: the length of the key of the content's cipher, [None] when there is none *)
Variable key_size : bytes -> option nat.
(** the cipher with a key of that length: what BIO_read delivers until it reports an error or the end; [None] when the key is refused *)
Variable unseal : bytes -> bytes -> option bytes.
Variables sha1 sha256 : bytes -> bytes.

(** the loop over the recipients of one envelope, encryption.cpp:993-1080; [None]: go on with the next string *)
Fixpoint try_infos (key : private_key) (sealed : bytes) (infos : list recipient_info) : res (option bytes) :=
  match infos with
  | [] => Ok None
  | i :: rest =>
      match ri_issuer i with
      | None => try_infos key sealed rest
      | Some issuer =>
          if negb (k_contains key issuer (ri_serial i)) then try_infos key sealed rest
          else
            do content_key <- k_decrypt key (ri_key i);;
            match key_size sealed with
            | None => try_infos key sealed rest
            | Some n =>
                if (List.length content_key <? n)%nat then Undef
                else
                  match unseal (firstn n content_key) sealed with
                  | None => try_infos key sealed rest
                  | Some data => Ok (Some data)
                  end
            end
      end
  end.

(** DecryptEnvelopedData, encryption.cpp:962-1095 *)
Fixpoint decrypt_enveloped (key : private_key) (recipients : list obj) : res bytes :=
  match recipients with
  | [] => Throw EGeneral
  | o :: rest =>
      do s <- as_string o;;
      do _ <- safe_convert int32_t uint64_t (Z.of_N (size_of s));;
      match parse s with
      | None => decrypt_enveloped key rest
      | Some e =>
          do found <- try_infos key (e_sealed e) (e_infos e);;
          match found with
          | Some data => Ok data
          | None => decrypt_enveloped key rest
          end
      end
  end.

(** the loop that adds every recipient to the digest, encryption.cpp:922-932 *)
Fixpoint all_strings (l : list obj) : res bytes :=
  match l with
  | [] => Ok []
  | o :: rest => do s <- as_string o;; do r <- all_strings rest;; Ok (s ++ r)
  end.

(** GetRecipientKey, encryption.cpp:882-960; the first 20 bytes are read without looking at the size (line 916) *)
Definition recipient_key (recipients : list obj) (length_bits : Z) (alg : algorithm) (key : private_key) : res bytes :=
  let hash := if (length_bits =? 256)%Z && is_aes alg then sha256 else sha1 in
  do data <- decrypt_enveloped key recipients;;
  if (List.length data <? 20)%nat then Undef
  else
    do strings <- all_strings recipients;;
    let digest := hash (firstn 20 data ++ strings) in
    do length_bytes <- safe_convert uint64_t int64_t (Z.quot length_bits 8);;
    Ok (if (length_bytes <? Z.of_nat (List.length digest))%Z then firstn (Z.to_nat length_bytes) digest else digest).

(** what SetEncryptionKey takes from the encryption dictionary, file.cpp:245-305: recipients, length and algorithm *)
Definition handler_settings (d : dict) : res (list obj * Z * algorithm) :=
  do _ <- find_name (str "Filter") d;;
  do sub_filter <- find_name (str "SubFilter") d;;
  do bits <- find_length_bits d;;
  if beq sub_filter (str "adbe.pkcs7.s3") || beq sub_filter (str "adbe.pkcs7.s4") then
    do recipients <- find_array (str "Recipients") d;; Ok (recipients, bits, ANone)
  else if beq sub_filter (str "adbe.pkcs7.s5") then
    if negb (sm_contains (str "CF") d) then Ok ([], bits, ANone)
    else
      do filters <- find_dict (str "CF") d;;
      if negb (sm_contains (str "DefaultCryptFilter") filters) then Ok ([], bits, ANone)
      else
        do filter <- find_dict (str "DefaultCryptFilter") filters;;
        if negb (sm_contains (str "CFM") filter) then Ok ([], bits, ANone)
        else
          do method <- find_name (str "CFM") filter;;
          let alg := if beq method (str "AESV2") || beq method (str "AESV3") then AAES
                     else if beq method (str "V2") then ARC4 else ANone in
          do bits' <- (if beq method (str "AESV3") && sm_contains (str "Length") filter
                       then find_integer (str "Length") filter else Ok bits);;
          do recipients <- find_array (str "Recipients") filter;;
          Ok (recipients, bits', alg)
  else Ok ([], bits, ANone).

(** File::SetEncryptionKey, file.cpp:238-320: the answer and the file key after it.  [encryption] is the encryption dictionary of an
    encrypted file, [old] the key before.  The last part catches every exception. *)
Definition set_encryption_key (encryption : option dict) (old : option bytes) (key : private_key) : res (bool * option bytes) :=
  match encryption with
  | None => Ok (false, old)
  | Some d =>
      do settings <- handler_settings d;;
      let '(recipients, bits, alg) := settings in
      match recipient_key recipients bits alg key with
      | Ok k => Ok (true, Some k)
      | Throw ENotModelled => Throw ENotModelled
      | Throw _ => Ok (false, old)
      | Undef => Undef
      | NoFuel => NoFuel
      end
  end.
End OpenSSL.

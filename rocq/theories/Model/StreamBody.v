(** Bodies of streams: syntax/objects/stream_object.cpp, syntax/filters/filter.cpp.

    Simplifications: the entries of the header are direct objects or references already followed (a reference is [ENotModelled]);
    zlib, libjpeg and openjpeg are parameters, and so is the encryption of the file (Model/Encryption.v models it). *)
From Coq Require Import List NArith ZArith Bool String.
From Coq Require Import List.
From Verif.Model Require Import Base SMap Object Filters Encryption.
Import ListNotations.
Local Open Scope N_scope.

(** stream_object.h:57-62, [raw] is what GetBodyRaw gives (lines 161-202): the bytes at the data offset, or what was put there *)
Record stream : Type := {
  header : dict;
  raw : bytes;
  decrypted : option bytes;       (* _body_decrypted, if initialized *)
  decoded : option bytes;         (* _body_decoded, if initialized *)
  dirty : bool;
  exempt : bool                   (* IsEncryptionExempted *)
}.

Section Streams.
(** ZlibWrapper::Deflate and Inflate, utils/zlib_wrapper.cpp:163-200 *)
Variables deflate inflate : bytes -> res bytes.
(** DCTDecodeFilter and JPXDecodeFilter with their parameters *)
Variables dct_encode dct_decode jpx_decode : dict -> bytes -> res bytes.
(** File::EncryptStream and DecryptStream for the object of this stream ([None]), and EncryptData and DecryptData with a named
    crypt filter *)
Variables encrypt decrypt : option bytes -> bytes -> res bytes.
(** the file is encrypted (and fully opened), file.cpp:423-434; the encryption was added or removed since it was opened *)
Variables is_encrypted encryption_dirty : bool.

Definition find_obj (k : bytes) (d : dict) : res obj :=
  match sm_find k d with Some o => Ok o | None => Throw EGeneral end.
Definition integer_or (k : bytes) (d : dict) (default : Z) : res Z := if sm_contains k d then find_integer k d else Ok default.

(** FlateDecodeFilter::Decode, flate_decode_filter.cpp:29-32, and the parameters of ApplyPredictor, lines 53-93 *)
Definition flate_decode (params : dict) (s : bytes) : res bytes :=
  do d <- inflate s;;
  do predictor <- integer_or (str "Predictor") params 1;;
  if (predictor =? 1)%Z then Ok d
  else
    do colors <- integer_or (str "Colors") params 1;;
    do bits <- integer_or (str "BitsPerComponent") params 8;;
    do columns <- integer_or (str "Columns") params 1;;
    do _ <- integer_or (str "EarlyChange") params 1;;
    apply_predictor predictor colors bits columns d.

(** FilterBase::GetFilterByName, filter.cpp:16-32 *)
Inductive filter : Type := FFlate | FAscii85 | FAsciiHex | FDct | FLzw | FJpx.
Definition filter_by_name (n : bytes) : res filter :=
  if beq n (str "FlateDecode") then Ok FFlate
  else if beq n (str "ASCII85Decode") then Ok FAscii85
  else if beq n (str "ASCIIHexDecode") then Ok FAsciiHex
  else if beq n (str "DCTDecode") then Ok FDct
  else if beq n (str "LZWDecode") then Ok FLzw
  else if beq n (str "JPXDecode") then Ok FJpx
  else Throw EGeneral.

(** Encode: flate_decode_filter.cpp:25-27 (the parameters are not used), ascii_85_decode_filter.cpp:8-10,
    ascii_hex_decode_filter.cpp:17-19, lzw_decode_filter.cpp:14-16, jpx_decode_filter.cpp:60-62.  int overflow in the ASCII85
    decoder is taken to wrap here; Model/Filters.v has both readings. *)
Definition filter_encode (f : filter) (params : dict) (s : bytes) : res bytes :=
  match f with
  | FFlate => deflate s
  | FDct => dct_encode params s
  | FAscii85 | FAsciiHex | FLzw | FJpx => Throw ENotSupported
  end.
Definition filter_decode (f : filter) (params : dict) (s : bytes) : res bytes :=
  match f with
  | FFlate => flate_decode params s
  | FAscii85 => ascii85_decode false s (List.length s)
  | FAsciiHex => asciihex_decode s (List.length s)
  | FDct => dct_decode params s
  | FLzw => Throw ENotSupported
  | FJpx => jpx_decode params s
  end.

(** IsType<ArrayObjectPtr<NameObjectPtr>>, object_utils.h:225-249 *)
Fixpoint names_of (l : list obj) : option (list bytes) :=
  match l with
  | [] => Some []
  | OName n :: r => match names_of r with Some m => Some (n :: m) | None => None end
  | _ => None
  end.

(** GetBodyDecrypted, stream_object.cpp:432-506, where nothing is cached: position of the first Crypt filter *)
Fixpoint crypt_index (l : list bytes) : option nat :=
  match l with
  | [] => None
  | n :: r => if beq n (str "Crypt") then Some O else match crypt_index r with Some i => Some (S i) | None => None end
  end.
Definition find_array (k : bytes) (d : dict) : res (list obj) :=
  match sm_find k d with
  | Some (OArr l) => Ok l
  | Some (ORef _ _) => Throw ENotModelled
  | Some _ => Throw EConversion
  | None => Throw EGeneral
  end.
(** params->GetValue(i), a std::vector::at, converted to a dictionary *)
Definition nth_dict (l : list obj) (i : nat) : res dict :=
  match nth_error l i with
  | Some (ODict d) => Ok d
  | Some (ORef _ _) => Throw ENotModelled
  | Some _ => Throw EConversion
  | None => Throw EStdRange
  end.
Definition get_decrypted (s : stream) : res bytes :=
  match decrypted s with
  | Some b => Ok b
  | None =>
      if exempt s || negb is_encrypted then Ok (raw s)
      else if negb (sm_contains (str "Filter") (header s)) then decrypt None (raw s)
      else
        do f <- find_obj (str "Filter") (header s);;
        match f with
        | OName n =>
            if beq n (str "Crypt") then
              do p <- find_dict (str "DecodeParms") (header s);;
              do h <- find_name (str "Name") p;;
              decrypt (Some h) (raw s)
            else decrypt None (raw s)
        | OArr l =>
            match names_of l with
            | Some ns =>
                match crypt_index ns with
                | Some i =>
                    do ps <- find_array (str "DecodeParms") (header s);;
                    do p <- nth_dict ps i;;
                    do h <- find_name (str "Name") p;;
                    decrypt (Some h) (raw s)
                | None => decrypt None (raw s)
                end
            | None => decrypt None (raw s)
            end
        | ORef _ _ => Throw ENotModelled
        | _ => decrypt None (raw s)
        end
  end.

(** lines 276-300: the filters in the order of the array.  params[i] is std::vector::operator[], which does not check. *)
Fixpoint decode_all (params : option (list obj)) (i : nat) (l : list bytes) (b : bytes) : res bytes :=
  match l with
  | [] => Ok b
  | n :: r =>
      if beq n (str "Crypt") then decode_all params (S i) r b
      else
        do f <- filter_by_name n;;
        do b' <- match params with
                 | None => filter_decode f [] b
                 | Some ps =>
                     match nth_error ps i with
                     | None => Undef
                     | Some ONull => filter_decode f [] b
                     | Some (ODict d) => filter_decode f d b
                     | Some (ORef _ _) => Throw ENotModelled
                     | Some _ => Throw EConversion
                     end
                 end;;
        decode_all params (S i) r b'
  end.

(** GetBody, lines 204-308 *)
Definition get_body (s : stream) : res bytes :=
  match decoded s with
  | Some b => Ok b
  | None =>
      if negb (sm_contains (str "Filter") (header s)) then get_decrypted s
      else
        do f <- find_obj (str "Filter") (header s);;
        match f with
        | ONull => get_decrypted s
        | OName n =>
            if beq n (str "Crypt") then get_decrypted s
            else
              do flt <- filter_by_name n;;
              do p <- (if sm_contains (str "DecodeParms") (header s) then find_dict (str "DecodeParms") (header s) else Ok []);;
              do b <- get_decrypted s;;
              filter_decode flt p b
        | OArr l =>
            match names_of l with
            | Some ns =>
                do ps <- (if sm_contains (str "DecodeParms") (header s)
                          then do a <- find_array (str "DecodeParms") (header s);; Ok (Some a) else Ok None);;
                do b <- get_decrypted s;;
                decode_all ps 0 ns b
            | None => Throw EGeneral
            end
        | ORef _ _ => Throw ENotModelled
        | _ => Throw EGeneral
        end
  end.

(** EncryptStream and EncryptData of the stream, lines 508-560 *)
Definition encrypt_body (s : stream) (h : option bytes) (b : bytes) : res bytes :=
  if exempt s || negb is_encrypted then Ok b else encrypt h b.

(** lines 398-424: the filters again in the order of the array *)
Fixpoint encode_all (s : stream) (params : option (list obj)) (i : nat) (l : list bytes) (b : bytes) : res bytes :=
  match l with
  | [] => Ok b
  | n :: r =>
      do b1 <- (if beq n (str "Crypt") then encrypt_body s None b else Ok b);;
      do f <- filter_by_name n;;
      do b2 <- match params with
               | None => filter_encode f [] b1
               | Some ps =>
                   match nth_error ps i with
                   | Some (ODict d) => filter_encode f d b1
                   | Some (ORef _ _) => Throw ENotModelled
                   | _ => filter_encode f [] b1
                   end
               end;;
      encode_all s params (S i) r b2
  end.

(** lines 346-430: encoding of a body that was changed *)
Definition encode_changed (s : stream) : res bytes :=
  do b <- get_body s;;
  if negb (sm_contains (str "Filter") (header s)) then encrypt_body s None b
  else
    do f <- find_obj (str "Filter") (header s);;
    match f with
    | ONull => encrypt_body s None b
    | OName n =>
        if beq n (str "Crypt") then
          do p <- find_dict (str "DecodeParms") (header s);;
          do h <- find_name (str "Name") p;;
          encrypt_body s (Some h) b
        else
          do flt <- filter_by_name n;;
          do p <- (if sm_contains (str "DecodeParms") (header s) then find_dict (str "DecodeParms") (header s) else Ok []);;
          do e <- filter_encode flt p b;;
          encrypt_body s None e
    | OArr l =>
        match names_of l with
        | Some ns =>
            do ps <- (if sm_contains (str "DecodeParms") (header s)
                      then do a <- find_array (str "DecodeParms") (header s);; Ok (Some a) else Ok None);;
            encode_all s ps 0 ns b
        | None => Throw EGeneral
        end
    | ORef _ _ => Throw ENotModelled
    | _ => Throw EGeneral
    end.

(** GetBodyEncoded, lines 310-430: what is written between stream and endstream (ToPdfStreamInternal, lines 598-611) *)
Definition get_encoded (s : stream) : res bytes :=
  if negb is_encrypted && negb encryption_dirty && (negb (dirty s) || match decoded s with None => true | Some _ => false end)
  then Ok (raw s)
  else if negb (dirty s) then do b <- get_decrypted s;; encrypt_body s None b
  else encode_changed s.

(** SetBody, lines 84-92; [initialized]: the stream was parsed or made completely, so that a change marks it, object.cpp:216-223 *)
Definition set_body (s : stream) (initialized : bool) (b : bytes) : stream :=
  {| header := header s; raw := raw s; decrypted := decrypted s; decoded := Some b; dirty := dirty s || initialized; exempt := exempt s |}.
(** the header is changed by the user *)
Definition set_header (s : stream) (d : dict) : stream :=
  {| header := d; raw := raw s; decrypted := decrypted s; decoded := decoded s; dirty := true; exempt := exempt s |}.
(** the stream as parsed from a file with this data *)
Definition loaded (d : dict) (e : bool) (data : bytes) : stream :=
  {| header := d; raw := data; decrypted := None; decoded := None; dirty := false; exempt := e |}.
(** a stream after GetBody: the caches are filled (a null Filter entry leaves _body_decoded alone, line 235) *)
Definition read_body (s : stream) : res stream :=
  do b <- get_body s;;
  Ok {| header := header s; raw := raw s;
        decrypted := match decrypted s with Some x => Some x | None => match get_decrypted s with Ok x => Some x | _ => None end end;
        decoded := match decoded s with
                   | Some x => Some x
                   | None => match sm_find (str "Filter") (header s) with Some ONull => None | _ => Some b end
                   end;
        dirty := dirty s; exempt := exempt s |}.
End Streams.

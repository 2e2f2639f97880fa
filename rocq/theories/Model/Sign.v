(** Signing a document: semantics/objects/document.cpp (Document::Sign), semantics/utils/document_signer.cpp, utils/pkcs12_key.cpp,
    and the writing of objects with a serialization override (syntax/objects/object.cpp, dictionary_object.cpp). *)
From Coq Require Import List NArith ZArith Bool String.
From Coq Require Import List.
From Verif.Model Require Import Base Numbers SMap Object Arith.
Import ListNotations.
Local Open Scope N_scope.

(** A value of the signature dictionary: an object, or an object with a SerializationOverrideAttribute, whose text is written
    instead (serialization_override_object_attribute.h, object.cpp:24-63). *)
Inductive sval : Type := Plain (o : obj) | Override (text : bytes).
Definition sval_text (v : sval) : bytes := match v with Plain o => to_pdf o | Override t => t end.

(** DocumentSignatureSettings, document_signature_settings.h: the values that go to the dictionary (the certificate a hexadecimal
    string, the others literal strings; the time is the text of a Date). *)
Record settings : Type := {
  s_certificate : option bytes;
  s_name : option bytes;
  s_location : option bytes;
  s_reason : option bytes;
  s_time : option bytes
}.

Definition insert_if {A} (k : bytes) (f : A -> sval) (o : option A) (m : list (bytes * sval)) : list (bytes * sval) :=
  match o with Some v => sm_insert k (f v) m | None => m end.

(** Document::Sign, document.cpp:682-727: the signature dictionary, with 100 and 32768 spaces where the byte ranges and the signature
    will be.  Simplification: the indirect objects created around it (727-810) are not part of this definition; the member
    dictionaries are ordinary objects. *)
Definition byte_range_room : nat := 100.
Definition contents_room : N := 32768.
Definition signature_dictionary (s : settings) : list (bytes * sval) :=
  let m := sm_insert (str "Type") (Plain (OName (str "Sig"))) [] in
  let m := insert_if (str "Cert") (fun v => Plain (OHex v)) (s_certificate s) m in
  let m := insert_if (str "Name") (fun v => Plain (OLit v)) (s_name s) m in
  let m := insert_if (str "Location") (fun v => Plain (OLit v)) (s_location s) m in
  let m := insert_if (str "Reason") (fun v => Plain (OLit v)) (s_reason s) m in
  let m := insert_if (str "M") (fun v => Plain (OLit v)) (s_time s) m in
  let m := sm_insert (str "Filter") (Plain (OName (str "Adobe.PPKLite"))) m in
  let m := sm_insert (str "SubFilter") (Plain (OName (str "adbe.pkcs7.detached"))) m in
  let m := sm_insert (str "ByteRange") (Override (repeat 32 byte_range_room)) m in
  sm_insert (str "Contents") (Override (repeat 32 (N.to_nat contents_room))) m.

(** DictionaryObject::ToPdfStreamUpdateOffset, dictionary_object.cpp:84-107, from output position [pos] on: the text between the
    brackets and the position of each value (Object::UpdateOffset, object.cpp:70-76, of a direct object) *)
Fixpoint write_members (first : bool) (pos : N) (m : list (bytes * sval)) : bytes * list (bytes * N) :=
  match m with
  | [] => ([], [])
  | (k, v) :: t =>
      let key := (if first then [] else [32]) ++ (47 :: name_to_string k) ++ [32] in
      let at_value := pos + N.of_nat (List.length key) in
      let '(txt, l) := write_members false (at_value + N.of_nat (List.length (sval_text v))) t in
      (key ++ sval_text v ++ txt, (k, at_value) :: l)
  end.

(** FileWriter::WriteObject, file_writer.cpp:1228-1257, of the dictionary at output position [pos] *)
Definition write_signature (num gen pos : N) (m : list (bytes * sval)) : bytes * list (bytes * N) :=
  let heading := to_string_N num ++ [32] ++ to_string_N gen ++ [32] ++ str "obj" ++ [10] ++ [60; 60] in
  let '(txt, l) := write_members true (pos + N.of_nat (List.length heading)) m in
  (heading ++ txt ++ [62; 62] ++ [10] ++ str "endobj" ++ [10], l).

(** ** The streams *)

(** OutputStream::SetOutputPosition and Write, output_stream.cpp:21-79, of the destination, not behind its end *)
Definition write_at (pos : Z) (data file : bytes) : res bytes :=
  if (pos <? 0)%Z || (Z.of_nat (List.length file) <? pos)%Z then Throw ENotModelled
  else Ok (firstn (Z.to_nat pos) file ++ data ++ skipn (Z.to_nat pos + List.length data) file).

(** PKCS12Key::SignUpdate, pkcs12_key.cpp:356-388: blocks of at most BUFFER_SIZE (constants.cpp:8) are read at the current position and
    passed to OpenSSL until [len] bytes were read; at the end of the file nothing more is read and the loop goes on for ever *)
Definition buffer_size : N := 4096.
Fixpoint sign_update (fuel : nat) (input : bytes) (len : N) : res bytes :=
  if len =? 0 then Ok []
  else
    match fuel with
    | O => NoFuel
    | S f =>
        let block := firstn (N.to_nat (N.min len buffer_size)) input in
        do rest <- sign_update f (skipn (List.length block) input) (len - N.of_nat (List.length block));;
        Ok (block ++ rest)
    end.
(** DocumentSigner::OnBeforeOutputFlush, document_signer.cpp:85-97: a range that starts at [pos]; a negative length never counts down
    to zero *)
Definition sign_range (file : bytes) (pos len : Z) : res bytes :=
  if (pos <? 0)%Z then Throw ENotModelled
  else if (len <? 0)%Z then NoFuel
  else sign_update (S (List.length file)) (skipn (Z.to_nat pos) file) (Z.to_N len).

(** ** The key *)

(** PKCS12KeyImpl, pkcs12_key.cpp:41-48: [Some f] while the certificate and the private key are loaded, [f] is the signature OpenSSL
    computes over the data (PKCS7_dataFinal and i2d_PKCS7); [None] after SignCleanup, 421-458, which frees and clears both *)
Definition key := option (bytes -> res bytes).
(** SignInitialize, pkcs12_key.cpp:261-349: without a certificate PKCS7_add_signature dereferences a null pointer *)
Definition sign_initialize (k : key) : res (bytes -> res bytes) := match k with Some f => Ok f | None => Undef end.

(** ** DocumentSigner::OnBeforeOutputFlush, document_signer.cpp:41-115 *)

(** lines 60-74: the four numbers *)
Definition new_ranges (size contents : Z) (room : N) : res (list Z) :=
  do behind <- safe_addition int64_t int64_t uint64_t contents (Z.of_N room);;
  Ok [0; contents; behind; size - behind]%Z.

(** lines 99-114: the signature in hexadecimal, filled up with zeros before the closing bracket *)
Definition padded_signature (signature : bytes) (room : N) : res bytes :=
  let encoded := hex_to_pdf signature in
  if room <? N.of_nat (List.length encoded) then Throw EGeneral
  else Ok (firstn (List.length encoded - 1) encoded ++ repeat 48 (N.to_nat room - List.length encoded) ++ skipn (List.length encoded - 1) encoded).

(** lines 83-114: what happens after SignInitialize *)
Definition sign_ranges (f : bytes -> res bytes) (file : bytes) (ranges : list Z) (contents : Z) (room : N) : res bytes :=
  match ranges with
  | [a; b; c; e] =>
      do first <- sign_range file a b;;
      do second <- sign_range file c e;;
      do signature <- f (first ++ second);;
      do text <- padded_signature signature room;;
      write_at contents text file
  | _ => Throw EGeneral
  end.

(** The whole function: the signed file, and the key afterwards (the scope guard at line 83 runs SignCleanup however it ends).
    [byte_range] and [contents] are the recorded positions of the two values. *)
Definition sign_output (k : key) (file : bytes) (byte_range contents : Z) (room : N) : res bytes * key :=
  if (byte_range =? -1)%Z || (contents =? -1)%Z then (Throw EGeneral, k)
  else
    match
     (do ranges <- new_ranges (Z.of_nat (List.length file)) contents room;;
      do file1 <- write_at byte_range (to_pdf (OArr (map OInt ranges))) file;;
      do f <- sign_initialize k;;
      Ok (ranges, file1, f))
    with
    | Ok (ranges, file1, f) => (sign_ranges f file1 ranges contents room, None)
    | Throw e => (Throw e, k)
    | Undef => (Undef, k)
    | NoFuel => (NoFuel, k)
    end.

(** the recorded position of a value; -1 (BAD_OFFSET, constants.cpp:10) when it was not written *)
Definition offset_of (k : bytes) (l : list (bytes * N)) : Z := match sm_find k l with Some p => Z.of_N p | None => (-1)%Z end.

(** FileWriter::Write with the signer subscribed, file_writer.cpp:34-86: the signature dictionary is written with number [num] and
    generation [gen] behind [before]; [after] is the rest of the file.  Simplification: the bytes around the dictionary are arbitrary. *)
Definition sign_document (k : key) (s : settings) (num gen : N) (before after : bytes) : res bytes * key :=
  let '(txt, offsets) := write_signature num gen (N.of_nat (List.length before)) (signature_dictionary s) in
  sign_output k (before ++ txt ++ after) (offset_of (str "ByteRange") offsets) (offset_of (str "Contents") offsets) contents_room.

(** Objects of encrypted files on their way from one file to another: saving (FileWriter clones every object, may renumber it and
    writes the clone) and copying into another document.

    Strings and bodies in memory are deciphered values; the functions of Model/Encryption.v and Model/StreamBody.v decide what is
    enciphered under which object number.  Simplifications: strings are deciphered when an object is opened, in the program when they
    are first used (the encryption of the file does not change in between, except after ForceObjectInitialization); the /Length of a
    stream, which RC4 leaves as it is, belongs to Model/FileWrite.v. *)
From Coq Require Import List NArith ZArith Bool String.
From Coq Require Import List.
From Verif.Model Require Import Base SMap Object Encryption StreamBody.
Import ListNotations.
Local Open Scope N_scope.

(** What an operation on every string of an object gives.  Strings are found in arrays and in the values of dictionaries. *)
Section Strings.
Variable f : bytes -> res bytes.
Fixpoint map_strings (o : obj) : res obj :=
  match o with
  | OLit v => do w <- f v;; Ok (OLit w)
  | OHex v => do w <- f v;; Ok (OHex w)
  | OArr l =>
      do m <- (fix go (l : list obj) : res (list obj) :=
                 match l with [] => Ok [] | x :: t => do y <- map_strings x;; do u <- go t;; Ok (y :: u) end) l;;
      Ok (OArr m)
  | ODict l =>
      do m <- (fix go (l : list (bytes * obj)) : res (list (bytes * obj)) :=
                 match l with [] => Ok [] | x :: t => do y <- map_strings (snd x);; do u <- go t;; Ok ((fst x, y) :: u) end) l;;
      Ok (ODict m)
  | _ => Ok o
  end.
Fixpoint map_entries (l : dict) : res dict :=
  match l with [] => Ok [] | x :: t => do y <- map_strings (snd x);; do u <- map_entries t;; Ok ((fst x, y) :: u) end.
End Strings.

(** A file: its encryption, if it has one; whether that was added or removed since the file was opened (IsEncryptionDirty); the bytes
    that RAND_bytes gives for the data of an object *)
Record vault : Type := { v_crypt : option crypt; v_dirty : bool; v_random : N -> N -> bytes }.

(** An object in memory.  [exempt] is the flag of the object itself, object.cpp:203-214; [owned]: the header of a stream knows its
    stream.  The parsed stream's does (stream_object.cpp:31-40), a clone's does not: line 115 replaces the header that the
    constructor prepared. *)
Inductive held : Type :=
| HObject (exempt : bool) (values : obj)
| HStream (owned header_exempt : bool) (s : stream).

Section Secure.
(** zlib, libjpeg, openjpeg and AES, as in Model/StreamBody.v and Model/Encryption.v *)
Variables deflate inflate : bytes -> res bytes.
Variables dct_encode dct_decode jpx_decode : dict -> bytes -> res bytes.
Variables cbc_encrypt cbc_decrypt : bytes -> bytes -> bytes -> bytes.

Definition secured (f : vault) : bool := match v_crypt f with Some _ => true | None => false end.

(** StringObjectBase::GetValue with DecryptString, string_object.cpp:145-172 and 377-430; [exempt] of the string or an owner *)
Definition open_string (f : vault) (num gen : N) (exempt : bool) (s : bytes) : res bytes :=
  match v_crypt f with
  | Some c => if exempt then Ok s else decrypt_string cbc_decrypt c s num gen
  | None => Ok s
  end.
(** ToPdfStreamInternal of strings with EncryptString, string_object.cpp:451-520.  GetRootObjectNumber, object.cpp:161-180, throws
    when neither the object nor one of its owners is indirect. *)
Definition close_string (f : vault) (root : option (N * N)) (exempt : bool) (s : bytes) : res bytes :=
  match v_crypt f with
  | Some c =>
      if exempt then Ok s
      else match root with
           | Some (num, gen) => encrypt_string cbc_encrypt c (v_random f num gen) s num gen
           | None => Throw EGeneral
           end
  | None => Ok s
  end.

(** File::DecryptStream, DecryptData, EncryptStream and EncryptData as used by streams, stream_object.cpp:432-560; a crypt filter
    named by the stream itself decides about the algorithm *)
Definition open_data (f : vault) (num gen : N) (filter : option bytes) (data : bytes) : res bytes :=
  match v_crypt f with
  | Some c =>
      match filter with
      | None => decrypt_stream cbc_decrypt c data num gen
      | Some name => do alg <- filter_algorithm (c_dict c) name;; decrypt_data cbc_decrypt c data num gen alg
      end
  | None => Ok data
  end.
Definition close_data (f : vault) (num gen : N) (filter : option bytes) (data : bytes) : res bytes :=
  match v_crypt f with
  | Some c =>
      match filter with
      | None => encrypt_stream cbc_encrypt c (v_random f num gen) data num gen
      | Some name => do alg <- filter_algorithm (c_dict c) name;; encrypt_data cbc_encrypt c (v_random f num gen) data num gen alg
      end
  | None => Ok data
  end.

(** the object [num] [gen] of file [f], which has the bytes of [o]; an object from an object stream is exempt, parser.cpp:403 *)
Definition open_object (f : vault) (num gen : N) (exempt : bool) (o : obj) : res held :=
  match o with
  | OStream h data =>
      do v <- map_entries (open_string f num gen exempt) h;;
      Ok (HStream true false (loaded v exempt data))
  | _ => do v <- map_strings (open_string f num gen exempt) o;; Ok (HObject exempt v)
  end.

(** GetBody of the object when it is a stream: by the user, or by Document::ForceObjectInitialization, document.cpp:990-1055, before
    the encryption is added or removed *)
Definition touch_object (f : vault) (num gen : N) (m : held) : res held :=
  match m with
  | HStream owned he s => do s' <- read_body inflate dct_decode jpx_decode (open_data f num gen) (secured f) s;; Ok (HStream owned he s')
  | HObject _ _ => Ok m
  end.

(** Clone: string_object.cpp:110-134, stream_object.cpp:109-138, object.cpp:253-267, mixed_array_object.cpp and dictionary_object.cpp;
    SetFile makes it an object of the other file *)
Definition clone_object (m : held) : held :=
  match m with
  | HStream _ he s => HStream false he s
  | HObject _ _ => m
  end.
(** SetDirty of File::ShallowCopyObject, file.cpp:1081-1103 *)
Definition dirty_object (m : held) : held :=
  match m with
  | HStream owned he s =>
      HStream owned he {| header := header s; raw := raw s; decrypted := decrypted s; decoded := decoded s; dirty := true; exempt := exempt s |}
  | HObject _ _ => m
  end.

(** ToPdfStreamInternal of the object [num] [gen] of file [f] *)
Definition write_object (f : vault) (num gen : N) (m : held) : res obj :=
  match m with
  | HObject e v => map_strings (close_string f (Some (num, gen)) e) v
  | HStream owned he s =>
      do h <- map_entries (close_string f (if owned then Some (num, gen) else None) (he || owned && exempt s)) (header s);;
      do b <- get_encoded deflate inflate dct_encode dct_decode jpx_decode (close_data f num gen) (open_data f num gen)
                (secured f) (v_dirty f) s;;
      Ok (OStream h b)
  end.

(** What the user is shown of the object [num] [gen] with the bytes [o]: strings, and the decoded body *)
Definition shown (f : vault) (num gen : N) (exempt : bool) (o : obj) : res obj :=
  do m <- open_object f num gen exempt o;;
  match m with
  | HObject _ v => Ok v
  | HStream _ _ s => do b <- get_body inflate dct_decode jpx_decode (open_data f num gen) (secured f) s;; Ok (OStream (header s) b)
  end.

(** FileWriter::Write for one object: its number may change (SquashTableSpace); [touched]: its body was read *)
Definition save_object (from to : vault) (num gen num' gen' : N) (exempt touched : bool) (o : obj) : res obj :=
  do m <- open_object from num gen exempt o;;
  do m <- (if touched then touch_object from num gen m else Ok m);;
  write_object to num' gen' (clone_object m).
(** File::ShallowCopyObject into another document, and FileWriter::Write of that document *)
Definition copy_object (from to : vault) (num gen num' gen' : N) (exempt touched : bool) (o : obj) : res obj :=
  do m <- open_object from num gen exempt o;;
  do m <- (if touched then touch_object from num gen m else Ok m);;
  write_object to num' gen' (clone_object (dirty_object (clone_object m))).
End Secure.

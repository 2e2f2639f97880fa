(** Opening a file: which strings and streams are treated as not enciphered.

    An object that carries the mark m_encryption_exempted, and everything inside it, is neither deciphered when it is read nor
    enciphered when it is written (object.cpp:203-214).  Parts of a file are given by a place and a path: the trailer of a
    cross-reference section or an indirect object, and the keys and indices that lead into it. *)
From Coq Require Import List NArith ZArith Bool String.
From Coq Require Import List.
From Verif.Model Require Import Base SMap Object Encryption.
Import ListNotations.
Local Open Scope N_scope.

Inductive place : Type := PSection (i : nat) | PObject (num gen : N).
Inductive step : Type := SKey (k : bytes) | SIndex (i : nat).
Definition spot : Type := (place * list step)%type.
Definition place_eqb (a b : place) : bool :=
  match a, b with
  | PSection i, PSection j => Nat.eqb i j
  | PObject n g, PObject m h => (n =? m) && (g =? h)
  | _, _ => false
  end.
Definition step_eqb (a b : step) : bool :=
  match a, b with SKey k, SKey l => beq k l | SIndex i, SIndex j => Nat.eqb i j | _, _ => false end.
Fixpoint leads_to (p q : list step) : bool :=
  match p, q with
  | [], _ => true
  | x :: p', y :: q' => step_eqb x y && leads_to p' q'
  | _, _ => false
  end.
Definition covers (a b : spot) : bool := place_eqb (fst a) (fst b) && leads_to (snd a) (snd b).

(** A file whose cross-reference sections were read: the sections in the order of the chain, each with its trailer dictionary and
    whether it is a cross-reference stream; the numbers of the cross-reference streams; which objects are in object streams;
    GetIndirectObject for objects that are read; the encryption that the encryption dictionary describes. *)
Record source : Type := {
  f_sections : list (bool * dict);
  f_xref_streams : list (N * N);
  f_packed : N -> N -> bool;
  f_object : N -> N -> res obj;
  f_crypt : crypt
}.

(** A value and where it is *)
Definition loc : Type := (spot * obj)%type.
Definition child (s : spot) (x : step) : spot := (fst s, snd s ++ [x]).

(** File: _initialized, the marks set since the file was opened, _encryption_dictionary *)
Record state : Type := { st_ready : bool; st_marks : list spot; st_dictionary : option obj }.
Definition closed : state := {| st_ready := false; st_marks := []; st_dictionary := None |}.
Definition add_mark (s : spot) (st : state) : state :=
  {| st_ready := st_ready st; st_marks := s :: st_marks st; st_dictionary := st_dictionary st |}.

(** File::IsEncrypted, file.cpp:426-434 *)
Definition is_encrypted (st : state) : bool := match st_dictionary st with None | Some ONull => false | Some _ => true end.

(** The marks set when objects are parsed: objects of object streams, parser.cpp:401-404, and cross-reference streams, 699 *)
Definition born_exempt (f : source) (p : place) : bool :=
  match p with
  | PObject n g => f_packed f n g || existsb (fun x => (fst x =? n) && (snd x =? g)) (f_xref_streams f)
  | PSection _ => false
  end.
(** Object::IsEncryptionExempted, object.cpp:203-214: the object or one of its owners *)
Definition exempt (f : source) (st : state) (s : spot) : bool :=
  born_exempt f (fst s) || existsb (fun m => covers m s) (st_marks st).

(** GetIndirectObject.  An object stream of an encrypted file is deciphered before it is parsed, which needs the key of the file
    (file.cpp:192-196, 542-549).  Simplification: its data are not empty and it names no crypt filter of its own. *)
Definition fetch (encrypted : bool) (f : source) (n g : N) : res obj :=
  if encrypted && f_packed f n g then do key <- current_key (f_crypt f);; f_object f n g else f_object f n g.

(** DereferenceHelper::Get, object_utils.h:126-155.  Simplification: the targets that reference objects remember are the subject of
    Model/Deref.v. *)
Fixpoint follow (fuel : nat) (encrypted : bool) (f : source) (visited : list (N * N)) (l : loc) : res loc :=
  match snd l with
  | ORef n g =>
      if existsb (fun x => (fst x =? n) && (snd x =? g)) visited then Throw EGeneral
      else match fuel with
           | O => NoFuel
           | S k => do o <- fetch encrypted f n g;; follow k encrypted f ((n, g) :: visited) ((PObject n g, []), o)
           end
  | _ => Ok l
  end.

(** FindAs<T>(name): Find and ConvertTo<T>, dictionary_object.h and object_utils.h:181-201.  [kind]: the conversion succeeds. *)
Definition find_as (kind : obj -> bool) (fuel : nat) (encrypted : bool) (f : source) (s : spot) (d : dict) (k : bytes) : res loc :=
  match sm_find k d with
  | None => Throw EGeneral
  | Some v => do l <- follow fuel encrypted f [] (child s (SKey k), v);; if kind (snd l) then Ok l else Throw EConversion
  end.
Definition is_dictionary (o : obj) : bool := match o with ODict _ => true | _ => false end.
Definition is_array (o : obj) : bool := match o with OArr _ => true | _ => false end.
Definition is_name (o : obj) : bool := match o with OName _ => true | _ => false end.
Definition is_hex (o : obj) : bool := match o with OHex _ => true | _ => false end.
Definition entries (o : obj) : dict := match o with ODict d => d | _ => [] end.
Fixpoint elements_from (s : spot) (i : nat) (l : list obj) : list loc :=
  match l with [] => [] | x :: t => (child s (SIndex i), x) :: elements_from s (S i) t end.
Definition elements (l : loc) : list loc := match snd l with OArr a => elements_from (fst l) 0 a | _ => [] end.

(** File::ExemptEncryptionDictionary, file.cpp:1210-1234.  While the reference is followed, _encryption_dictionary is the reference:
    deciphering an object stream then asks for the object that is being looked for, without end. *)
Definition exempt_dictionary (f : source) (st : state) : state * res unit :=
  match f_sections f with
  | [] => (st, Undef)
  | (_, trailer) :: _ =>
      match sm_find (str "Encrypt") trailer with
      | None => (st, Ok tt)
      | Some (ORef n g) =>
          let st := {| st_ready := st_ready st; st_marks := st_marks st; st_dictionary := Some (ORef n g) |} in
          if f_packed f n g then (st, Undef)
          else match f_object f n g with
               | Ok o => ({| st_ready := st_ready st; st_marks := (PObject n g, []) :: st_marks st; st_dictionary := Some o |}, Ok tt)
               | Throw e => (st, Throw e)
               | Undef => (st, Undef)
               | NoFuel => (st, NoFuel)
               end
      | Some o => ({| st_ready := st_ready st; st_marks := (PSection 0, [SKey (str "Encrypt")]) :: st_marks st; st_dictionary := Some o |}, Ok tt)
      end
  end.

(** ExemptCrossReferenceStreams, file.cpp:1317-1332 *)
Fixpoint exempt_streams (i : nat) (l : list (bool * dict)) (st : state) : state :=
  match l with
  | [] => st
  | (is_stream, _) :: t => exempt_streams (S i) t (if is_stream : bool then add_mark (PSection i, []) st else st)
  end.

(** ExemptDocumentId, file.cpp:1236-1255: the value of the entry, which is not followed when it is a reference *)
Fixpoint exempt_identifiers (i : nat) (l : list (bool * dict)) (st : state) : state :=
  match l with
  | [] => st
  | (_, trailer) :: t =>
      exempt_identifiers (S i) t (if sm_contains (str "ID") trailer then add_mark (PSection i, [SKey (str "ID")]) st else st)
  end.

(** ExemptFileSignatures, file.cpp:1257-1315: one item of Fields, 1290-1313 *)
Definition signature_contents (fuel : nat) (encrypted : bool) (f : source) (item : loc) : res (option spot) :=
  do l <- follow fuel encrypted f [] item;;
  if negb (is_dictionary (snd l)) then Ok None
  else
    let field := entries (snd l) in
    if negb (sm_contains (str "FT") field) then Ok None
    else
      do ft <- find_as is_name fuel encrypted f (fst l) field (str "FT");;
      if negb (match snd ft with OName n => beq n (str "Sig") | _ => false end) then Ok None
      else if negb (sm_contains (str "V") field) then Ok None
      else
        do v <- find_as is_dictionary fuel encrypted f (fst l) field (str "V");;
        if negb (sm_contains (str "Contents") (entries (snd v))) then Ok None
        else
          do c <- find_as is_hex fuel encrypted f (fst v) (entries (snd v)) (str "Contents");;
          Ok (Some (fst c)).
Fixpoint exempt_fields (fuel : nat) (encrypted : bool) (f : source) (items : list loc) (st : state) : state * res unit :=
  match items with
  | [] => (st, Ok tt)
  | x :: t =>
      match signature_contents fuel encrypted f x with
      | Ok (Some s) => exempt_fields fuel encrypted f t (add_mark s st)
      | Ok None => exempt_fields fuel encrypted f t st
      | Throw e => (st, Throw e)
      | Undef => (st, Undef)
      | NoFuel => (st, NoFuel)
      end
  end.
(** 1260-1288: the items of Fields *)
Definition form_fields (fuel : nat) (encrypted : bool) (f : source) : res (list loc) :=
  match f_sections f with
  | [] => Undef
  | (_, trailer) :: _ =>
      match sm_find (str "Root") trailer with
      | None => Ok []
      | Some r =>
          do root <- follow fuel encrypted f [] ((PSection 0, [SKey (str "Root")]), r);;
          if negb (is_dictionary (snd root)) then Ok []
          else if negb (sm_contains (str "AcroForm") (entries (snd root))) then Ok []
          else
            do form <- find_as is_dictionary fuel encrypted f (fst root) (entries (snd root)) (str "AcroForm");;
            if negb (sm_contains (str "Fields") (entries (snd form))) then Ok []
            else
              do fields <- find_as is_array fuel encrypted f (fst form) (entries (snd form)) (str "Fields");;
              Ok (elements fields)
      end
  end.
Definition exempt_signatures (fuel : nat) (f : source) (st : state) : state * res unit :=
  match form_fields fuel (is_encrypted st) f with
  | Ok items => exempt_fields fuel (is_encrypted st) f items st
  | Throw e => (st, Throw e)
  | Undef => (st, Undef)
  | NoFuel => (st, NoFuel)
  end.

(** File::Initialize, file.cpp:123-174, once the sections were read: _initialized is set before the four functions run *)
Definition initialize (fuel : nat) (f : source) (st : state) : state * res unit :=
  if st_ready st then (st, Ok tt)
  else
    let st := {| st_ready := true; st_marks := st_marks st; st_dictionary := st_dictionary st |} in
    match exempt_dictionary f st with
    | (st, Ok _) => exempt_signatures fuel f (exempt_identifiers 0 (f_sections f) (exempt_streams 0 (f_sections f) st))
    | (st, e) => (st, e)
    end.

Section Crypt.
Variables cbc_encrypt cbc_decrypt : bytes -> bytes -> bytes -> bytes.     (* AES, as in Model/Encryption.v *)

(** StringObjectBase::GetValue, string_object.cpp:145-172 and 377-430, of a string with the bytes [s]; GetRootObjectNumber,
    object.cpp:161-180, throws for a part of a trailer *)
Definition string_value (f : source) (st : state) (p : spot) (s : bytes) : res bytes :=
  if negb (is_encrypted st) || exempt f st p then Ok s
  else match fst p with
       | PObject n g => decrypt_string cbc_decrypt (f_crypt f) s n g
       | PSection _ => Throw EGeneral
       end.
(** GetBodyDecrypted of a stream without a Crypt filter, stream_object.cpp:432-470 *)
Definition stream_data (f : source) (st : state) (n g : N) (s : bytes) : res bytes :=
  if exempt f st (PObject n g, []) || negb (is_encrypted st) then Ok s else decrypt_stream cbc_decrypt (f_crypt f) s n g.

(** A string on its way into a saved file with the same encryption: GetValue, Clone with CloneBaseProperties (object.cpp:253-267), which
    keeps the mark, the mark of the identifiers and of cross-reference streams in the new trailer (file_writer.cpp:1002-1010 and
    1091-1094), the mark of the encryption dictionary (file_writer.cpp:499-500), and ToPdfStreamInternal of strings
    (string_object.cpp:451-520).  [iv] is what RAND_bytes gives; the object keeps its number. *)
Definition string_saved (f : source) (st : state) (p : spot) (iv s : bytes) : res bytes :=
  do v <- string_value f st p s;;
  if negb (is_encrypted st) || exempt f st p then Ok v
  else match fst p with
       | PObject n g => encrypt_string cbc_encrypt (f_crypt f) iv v n g
       | PSection _ => Throw EGeneral
       end.
End Crypt.

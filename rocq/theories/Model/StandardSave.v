(** Opening a file and saving it under another name: syntax/files/file.cpp:123-160, files/file_writer.cpp:34-86, 776-935. *)
From Coq Require Import List NArith ZArith Bool.
From Verif.Model Require Import Base SMap Object Equality Token Xref Header FileWrite Chain Duplicates Conforming Save Rebuild.
Import ListNotations.
Local Open Scope N_scope.

(** XrefUsedEntry::GetReference, xref_entry.cpp:116-148, with Initialize, 150-238: the object of an entry, read at its offset; the length
    of a stream that is a reference is asked for as in Model/Conforming.v.  A heading with other numbers (Model/Misnumber.v) is not
    modelled here. *)
Definition entry_object (file : bytes) (c : chain) (e : xentry) : res obj :=
  let length_of a b :=
    do o <- get_object 2 file c a b;;
    match o with OInt z => Ok z | _ => Throw EConversion end in
  do '(n, g, o) <- load_entry parser_dictionary length_of file e;;
  if (n =? xnum e) && (g =? xgen e) then Ok o else Throw ENotModelled.

(** CloneXref, file_writer.cpp:817-933, for the entries of a table: the object of every entry in use is read, and an object that cannot be
    read ends the save.  Only the success is kept here: the objects are those of [content_of].  Entries of object streams (875-898) are
    not modelled. *)
Fixpoint clone_entries (file : bytes) (c : chain) (l : list xentry) : res unit :=
  match l with
  | [] => Ok tt
  | e :: r =>
      match xdata e with
      | KFree _ => clone_entries file c r
      | KUsed _ _ => do _ <- entry_object file c e;; clone_entries file c r
      | KComp _ _ => Throw ENotModelled
      end
  end.
(** CloneXrefChain, file_writer.cpp:776-815 *)
Fixpoint clone_sections (file : bytes) (c l : chain) : res unit :=
  match l with
  | [] => Ok tt
  | s :: r => do _ <- clone_entries file c (s_entries s);; clone_sections file c r
  end.
Definition content_of (file : bytes) (c : chain) (e : xentry) : obj :=
  match entry_object file c e with Ok o => o | _ => ONull end.

(** File::Open and Initialize, file.cpp:123-160, then FileWriter::Write, file_writer.cpp:34-86: the header is that of the source
    (CloneHeader).  Simplifications: the changes between are none, and files that are searched for objects are not saved here. *)
Definition resave (real : bool -> N -> N -> dbl) (hash : value -> N) (order : list (xentry * obj) -> list N) (arrange : list ditem -> list ditem)
    (decode : list (bytes * obj) -> bytes -> res bytes) (fuel : nat) (file : bytes) : res bytes :=
  do '(v, how) <- initialize parser_dictionary decode fuel [] file;;
  match how with
  | ByTable c =>
      do _ <- clone_sections file c c;;
      save_file real hash (content_of file c) order arrange v c
  | BySearch _ => Throw ENotModelled
  end.

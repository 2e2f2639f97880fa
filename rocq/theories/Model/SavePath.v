(** Saving to a path: Document::Save(path) and SaveIncremental(path) (semantics/objects/document.cpp:187-205), File::Open, Create and
    GetFilestream (syntax/files/file.cpp:31-103), FileWriter::Write and WriteIncremental (syntax/files/file_writer.cpp:34-155).
    The open document keeps the stream of its file (file.cpp:39-40) and objects are read from it when they are first asked for, so the
    bytes a document reads are the ones the disk has at that moment.
    Simplifications: a path stands for one file (no links, no two names for one file); whether a path can be opened for writing is a
    parameter; what std::fstream still holds of the file after a seek is not modelled (libstdc++ drops it); the objects of object streams
    are not modelled; an object that is held has its stream data read; the bytes that a failed save leaves behind are those of the steps
    that were completed, followed by a parameter [rest]; encrypted documents are not modelled; the watermark of
    a full save without a licence (ApplyWatermark, file_writer.cpp:1533-1640) is not modelled; entries of several sections with the same
    number, generation and offset are read separately (xref_entry.cpp:187-227). *)
From Coq Require Import List NArith ZArith Bool String.
From Verif.Model Require Import Base Object Equality Token Xref Header FileWrite Chain Merge Duplicates Update Save Resave.
Import ListNotations.
Local Open Scope N_scope.

Definition path := bytes.
Definition disk := path -> option bytes.
Definition put (d : disk) (p : path) (b : bytes) : disk := fun q => if beq p q then Some b else d q.

(** XrefUsedEntry: an entry and the object it holds once it was read (xref_entry.h:112-140) *)
Record lazy_entry : Type := { z_entry : xentry; z_held : option obj; z_dirty : bool }.
Record lazy_section : Type := { z_offset : Z; z_items : list lazy_entry; z_trailer : list (bytes * obj) }.
(** the open document: the path of its file, the version in its header and its sections, newest first *)
Record open_document : Type := { o_path : path; o_version : version; o_sections : list lazy_section }.

Section SavePath.
(** the file system: can the file be opened for writing? *)
Variable can_write : path -> bool.
(** LicenseInfo::IsValid *)
Variable licensed : bool.
(** what is left of an unfinished write *)
Variable rest : bytes.
(** how much of the header has reached the file when the first object is read: it may still be in the buffer of the stream *)
Variable flushed : nat.
Variable real : bool -> N -> N -> dbl.
Variable hash : value -> N.
Variable order : list (xentry * obj) -> list N.
Variable arrange : list ditem -> list ditem.
Variable resolve_length : N -> N -> res Z.

(** File::Create, file.cpp:47-60, with std::ios_base::trunc: the file is empty afterwards *)
Definition create (d : disk) (p : path) : res disk := if can_write p then Ok (put d p []) else Throw EGeneral.
(** the bytes that the stream of the document reads now *)
Definition live (d : disk) (doc : open_document) : bytes := match d (o_path doc) with Some b => b | None => [] end.

(** GetReference with XrefUsedEntry::Initialize, xref_entry.cpp:109-121, 150-238, from the bytes of the file *)
Definition fill_item (file : bytes) (x : lazy_entry) : res fentry :=
  match z_held x, xdata (z_entry x) with
  | Some o, _ => Ok {| f_entry := z_entry x; f_object := o; f_dirty := z_dirty x |}
  | None, KUsed offset _ =>
      if (offset =? -1)%Z then Throw EGeneral
      else do '(_, _, o) <- load_entry parser_dictionary resolve_length file (z_entry x);;
           Ok {| f_entry := z_entry x; f_object := o; f_dirty := z_dirty x |}
  | None, KFree _ => Ok {| f_entry := z_entry x; f_object := ONull; f_dirty := z_dirty x |}
  | None, KComp _ _ => Throw ENotModelled
  end.
Fixpoint fill_items (file : bytes) (l : list lazy_entry) : res (list fentry) :=
  match l with
  | [] => Ok []
  | x :: r => do y <- fill_item file x;; do t <- fill_items file r;; Ok (y :: t)
  end.
Fixpoint fill (file : bytes) (c : list lazy_section) : res (list fsection) :=
  match c with
  | [] => Ok []
  | s :: r =>
      do l <- fill_items file (z_items s);;
      do t <- fill file r;;
      Ok ({| f_offset := z_offset s; f_items := l; f_trailer := z_trailer s |} :: t)
  end.
(** The entries as CreateIncrementalXref finds them (file_writer.cpp:1111-1188): a changed entry holds its object, the others are not
    looked into *)
Definition as_held (x : lazy_entry) : fentry :=
  {| f_entry := z_entry x; f_object := match z_held x with Some o => o | None => ONull end; f_dirty := z_dirty x |}.
Definition known (c : list lazy_section) : list fsection :=
  map (fun s => {| f_offset := z_offset s; f_items := map as_held (z_items s); f_trailer := z_trailer s |}) c.

(** Document::Save(path): File::Create, then FileWriter::Write with the default options (file_writer.cpp:34-86): the header is written,
    every object is read and copied, then the rest is written. *)
Definition save (d : disk) (doc : open_document) (p : path) : res unit * disk :=
  match create d p with
  | Ok d1 =>
      let d2 := put d1 p (firstn flushed (write_header (o_version doc))) in
      match fill (live d2 doc) (o_sections doc) with
      | Ok c =>
          match save_file real hash (content_of c) order arrange (o_version doc) (memory_chain c) with
          | Ok out => (Ok tt, put d1 p out)
          | Throw e => (Throw e, put d1 p (write_header (o_version doc) ++ rest))
          | Undef => (Undef, put d1 p (write_header (o_version doc) ++ rest))
          | NoFuel => (NoFuel, put d1 p (write_header (o_version doc) ++ rest))
          end
      | Throw e => (Throw e, put d1 p (write_header (o_version doc)))
      | Undef => (Undef, put d1 p (write_header (o_version doc)))
      | NoFuel => (NoFuel, put d1 p (write_header (o_version doc)))
      end
  | Throw e => (Throw e, d)
  | Undef => (Undef, d)
  | NoFuel => (NoFuel, d)
  end.

(** Document::SaveIncremental(path): File::Create, then FileWriter::WriteIncremental (file_writer.cpp:88-155), which checks the licence
    first and copies the bytes of the source in blocks (CopyStreamContent, 1515-1531) *)
Definition save_incremental (d : disk) (doc : open_document) (p : path) : res unit * disk :=
  match create d p with
  | Ok d1 =>
      if licensed then
        match write_incremental (live d1 doc) (known (o_sections doc)) with
        | Ok out => (Ok tt, put d1 p out)
        | Throw e => (Throw e, put d1 p (live d1 doc ++ [10] ++ rest))
        | Undef => (Undef, put d1 p (live d1 doc ++ [10] ++ rest))
        | NoFuel => (NoFuel, put d1 p (live d1 doc ++ [10] ++ rest))
        end
      else (Throw EGeneral, d1)
  | Throw e => (Throw e, d)
  | Undef => (Undef, d)
  | NoFuel => (NoFuel, d)
  end.

(** File_GetIndirectObject on the open document, file.cpp:804-901 *)
Fixpoint lazy_in (n : N) (l : list lazy_entry) : option lazy_entry :=
  match l with [] => None | x :: r => if xnum (z_entry x) =? n then Some x else lazy_in n r end.
Fixpoint read_object (file : bytes) (c : list lazy_section) (n g : N) : res obj :=
  match c with
  | [] => Ok ONull
  | s :: r =>
      match lazy_in n (z_items s) with
      | Some x => if xgen (z_entry x) =? g then do y <- fill_item file x;; Ok (f_object y) else read_object file r n g
      | None => read_object file r n g
      end
  end.
Definition look_up (d : disk) (doc : open_document) (n g : N) : res obj := read_object (live d doc) (o_sections doc) n g.
End SavePath.

(** A file that is opened and saved without a license: File::Open and Initialize, syntax/files/file.cpp:123-160, then FileWriter::Write,
    syntax/files/file_writer.cpp:34-86, with ApplyWatermark (68).  The parts are Model/StandardSave.v, Model/Save.v and
    Model/MarkedSave.v, with their simplifications. *)
From Coq Require Import List NArith ZArith Bool String.
From Verif.Model Require Import Base SMap Object Equality Token Parser Xref Header FileWrite Chain Merge Unreferenced Duplicates Update Rebuild Conforming Save StandardSave.
From Verif.Model Require MarkedSave.
Import ListNotations.
Local Open Scope N_scope.

(** as Model/StandardSave.v, resave; [opening] decodes streams while the file is opened, [decode] and [encode] those that are marked;
    [depth] bounds the walk over the page tree *)
Definition resave_marked (real : bool -> N -> N -> dbl) (hash : value -> N) (order : list (xentry * obj) -> list N) (arrange : list ditem -> list ditem)
    (opening : list (bytes * obj) -> bytes -> res bytes) (text image : bytes) (decode encode : list (bytes * obj) -> bytes -> res bytes)
    (fuel depth : nat) (file : bytes) : res bytes :=
  do '(v, how) <- initialize parser_dictionary opening fuel [] file;;
  match how with
  | ByTable c =>
      do _ <- clone_sections file c c;;
      do '(items, trailer) <- optimize real hash (content_of file c) order arrange c;;
      MarkedSave.write_marked real text image decode encode depth v items trailer
  | BySearch _ => Throw ENotModelled
  end.

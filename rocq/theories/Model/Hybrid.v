(** Saving the changes of a hybrid-reference file: FileWriter::WriteIncremental and CreateIncrementalXref, syntax/files/file_writer.cpp, for a
    source whose tables have hybrid streams (xref.cpp:356-401). *)
From Coq Require Import List NArith ZArith Bool.
From Verif.Model Require Import Base Object Xref FileWrite Chain Merge Update.
Import ListNotations.
Local Open Scope N_scope.

(** A section of the open source: the table, and the entries of its hybrid stream with the objects they hold and their dirty flags
    (XrefTable::SetHybridStream, xref.cpp:399-401).  A table without hybrid stream has none. *)
Record hsection : Type := { h_table : fsection; h_hidden : list fentry }.

(** FileWriter::CreateIncrementalXref, file_writer.cpp:1107-1117: the loop runs over xref->Entries(), and XrefBase::Entries (xref.cpp:315-331)
    gives the entries of the table only; the hybrid stream is not visited.  CloneTrailerDictionary (1033-1038) copies XRefStm. *)
Definition write_incremental_hybrid (file : bytes) (c : list hsection) : res bytes := write_incremental file (map h_table c).

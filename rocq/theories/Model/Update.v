(** Saving several sections, and saving only the changes behind the original file: FileWriter::WriteXrefChain, WriteIncremental and
    CreateIncrementalXref, syntax/files/file_writer.cpp.  All sections that are written here are classic tables. *)
From Coq Require Import List NArith ZArith Bool String.
From Verif.Model Require Import Base SMap Object Containers Xref StartXref Header FileWrite Chain Merge.
Import ListNotations.
Local Open Scope N_scope.

(** One section written behind the output [out]: the body of the loop of WriteXrefChain, file_writer.cpp:1331-1347, and the end of
    WriteIncremental, 131-143: lengths and Size are recalculated, then the objects, an empty line, the table and startxref are written.
    The result is the output and the offset of the section (m_recalculate_offset on, WriteXrefTable 1421-1425). *)
Definition append_section (out : bytes) (l : list (xentry * obj)) (trailer : list (bytes * obj)) : res (bytes * Z) :=
  do l1 <- recalculate_lengths l;;
  let trailer' := set_size trailer (recalculate_size (map fst l1)) in
  let '(body, l2) := write_objects None (N.of_nat (List.length out)) l1 in
  do table <- write_xref_table (map fst l2) (ODict trailer');;
  let offset := Z.of_nat (List.length (out ++ body ++ [10])) in
  Ok (out ++ body ++ [10] ++ table ++ write_xref_offset offset, offset).

(** FileWriter::RecalculateXrefPrevOffset, file_writer.cpp:503-524: Prev is created or its value replaced.  A Prev that is not a direct
    integer is not modelled. *)
Definition set_prev (m : list (bytes * obj)) (offset : Z) : res (list (bytes * obj)) :=
  match sm_find (str "Prev") m with
  | None | Some (OInt _) => Ok (sm_insert (str "Prev") (OInt offset) (sm_remove (str "Prev") m))
  | Some _ => Throw ENotModelled
  end.

(** FileWriter::WriteXrefChain, file_writer.cpp:1318-1352: sections oldest first; [prev] is the offset of the section before *)
Fixpoint append_sections (out : bytes) (prev : option Z) (c : list (list (xentry * obj) * list (bytes * obj))) : res bytes :=
  match c with
  | [] => Ok out
  | (l, m) :: r =>
      do m' <- match prev with Some p => set_prev m p | None => Ok m end;;
      do '(out', offset) <- append_section out l m';;
      append_sections out' (Some offset) r
  end.
(** FileWriter::Write, file_writer.cpp:34-86, after cloning and optimising, for a chain of tables without hybrid streams *)
Definition write_tables (v : version) (c : list (list (xentry * obj) * list (bytes * obj))) : res bytes :=
  append_sections (write_header v) None c.

(** ** Incremental save *)

(** a section of the open source file: entries with the object they hold and their dirty flag, offset and trailer *)
Record fentry : Type := { f_entry : xentry; f_object : obj; f_dirty : bool }.
Record fsection : Type := { f_offset : Z; f_items : list fentry; f_trailer : list (bytes * obj) }.

(** XrefTable::Add for an entry with its object, xref.cpp:231-243: compressed entries are refused *)
Definition add_changed (p : xentry * obj) (t : list (xentry * obj)) : res (list (xentry * obj)) :=
  match xdata (fst p) with
  | KComp _ _ => Throw EGeneral
  | _ => Ok (padd p t)
  end.
(** file_writer.cpp:1111-1188: one section; the flag says whether a dirty entry was seen *)
Fixpoint collect_items (l : list fentry) (t : list (xentry * obj)) (any : bool) : res (list (xentry * obj) * bool) :=
  match l with
  | [] => Ok (t, any)
  | x :: r =>
      if f_dirty x then
        match xdata (f_entry x) with
        | KUsed _ false => collect_items r t true
        | KFree _ =>
            do t' <- add_changed ({| xnum := xnum (f_entry x); xgen := xgen (f_entry x); xdata := KFree 0 |}, f_object x) t;;
            collect_items r t' true
        | _ => do t' <- add_changed (f_entry x, f_object x) t;; collect_items r t' true
        end
      else collect_items r t any
  end.
Fixpoint collect (c : list fsection) (t : list (xentry * obj)) (any : bool) : res (list (xentry * obj) * bool) :=
  match c with
  | [] => Ok (t, any)
  | s :: r => do '(t', any') <- collect_items (f_items s) t any;; collect r t' any'
  end.

Definition as_section (s : fsection) : section :=
  {| s_kind := STable; s_entries := map f_entry (f_items s); s_hybrid := None; s_trailer := f_trailer s |}.
Definition list_head : xentry * obj := ({| xnum := 0; xgen := 65535; xdata := KFree 0 |}, ONull).

(** FileWriter::CreateIncrementalXref, file_writer.cpp:1100-1207: the new table and its trailer; an empty chain is dereferenced at its
    end (1190).  Inserting Prev with the overwrite flag keeps a Prev that is there (dictionary_object.cpp:180-206, C11). *)
Definition create_incremental (c : list fsection) : res (list (xentry * obj) * list (bytes * obj)) :=
  do '(t, any) <- collect c [list_head] false;;
  match c with
  | [] => Undef
  | s :: _ =>
      let m := clone_trailer (as_section s) in
      do m' <- (if any then dict_insert m (str "Prev") (OInt (f_offset s)) true else Ok m);;
      Ok (t, m')
  end.

(** FileWriter::WriteIncremental, file_writer.cpp:88-155, with a valid licence: the source bytes (CopyStreamContent, 1515-1531), a line
    feed, the changed objects and their section.  CloneXref (817-933) copies the entries and the trailer once more. *)
Definition write_incremental (file : bytes) (c : list fsection) : res bytes :=
  do '(t, m) <- create_incremental c;;
  let m' := clone_trailer {| s_kind := STable; s_entries := map fst t; s_hybrid := None; s_trailer := m |} in
  do '(out, _) <- append_section (file ++ [10]) t m';;
  Ok out.

(** XrefChain::ReleaseEntry, xref_chain.cpp:51-82, on the items of one section: the entry is replaced by a free one with generation 0;
    the new entry is not marked dirty (only File::AllocateNewEntry, file.cpp:986, and changes of used entries set the flag) *)
Definition release_item (num gen : N) (s : fsection) : fsection :=
  {| f_offset := f_offset s;
     f_items := map (fun x => if (xnum (f_entry x) =? num) && (xgen (f_entry x) =? gen)
                              then {| f_entry := {| xnum := num; xgen := 0; xdata := KFree 0 |}; f_object := ONull; f_dirty := false |}
                              else x) (f_items s);
     f_trailer := f_trailer s |}.

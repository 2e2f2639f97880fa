(** What saving does to the open document: FileWriter::CreateIncrementalXref and CloneXref (syntax/files/file_writer.cpp) take the
    objects out of the entries of the source, XrefUsedEntryBase::ReleaseReference (syntax/files/xref_entry.cpp).
    Simplifications: every object has been read already, so that entries are initialized; all sections are tables without hybrid
    streams; two entries with the same number, generation and offset hold one object (XrefUsedEntry::Initialize, xref_entry.cpp:
    187-235); the licence is valid and the document is not encrypted; a program holds no handle over a save (a handle it holds stays
    readable but belongs to no entry any more, Model/References.v).  Document::Sign (semantics/objects/document.cpp) writes the
    document in the same way as an incremental save. *)
From Coq Require Import List NArith ZArith Bool String.
From Verif.Model Require Import Base SMap Object Equality Xref Header FileWrite Chain Merge Duplicates Update Save.
Import ListNotations.
Local Open Scope N_scope.

(** the open document: the bytes of its file, m_next_allocation (file.h:150) and its sections, newest first *)
Record document : Type := { d_file : bytes; d_next : N; d_sections : list fsection }.

(** An entry as CloneXref copies it, file_writer.cpp:842-891: number, generation and offset; the copy of a used entry is always in
    use (SetReference, xref_entry.cpp:83-105) *)
Definition shown (e : xentry) : xentry :=
  match xdata e with
  | KUsed offset _ => {| xnum := xnum e; xgen := xgen e; xdata := KUsed offset true |}
  | _ => e
  end.
(** XrefUsedEntryBase::GetReference, xref_entry.cpp:107-115: a released entry gives the null object *)
Definition held (x : fentry) : obj :=
  match xdata (f_entry x) with
  | KUsed _ false => ONull
  | _ => f_object x
  end.
Definition same_data (a b : xkind) : bool :=
  match a, b with
  | KFree n, KFree m => n =? m
  | KUsed o u, KUsed p w => (o =? p)%Z && Bool.eqb u w
  | KComp s i, KComp t j => (s =? t) && (i =? j)
  | _, _ => false
  end.
Definition same_entry (a b : xentry) : bool := (xnum a =? xnum b) && (xgen a =? xgen b) && same_data (xdata a) (xdata b).

Definition shown_section (s : fsection) : section :=
  {| s_kind := STable; s_entries := map (fun x => shown (f_entry x)) (f_items s); s_hybrid := None; s_trailer := f_trailer s |}.
Definition memory_chain (c : list fsection) : chain := map shown_section c.
Definition content_of (c : list fsection) (e : xentry) : obj :=
  match find (fun x => same_entry (shown (f_entry x)) e) (flat_map f_items c) with
  | Some x => held x
  | None => ONull
  end.

(** File::GetIndirectObject, file.cpp:801-901, and GetReference of the entry *)
Definition get (c : list fsection) (n g : N) : obj :=
  match resolve_entry n g (memory_chain c) with
  | Some e => content_of c e
  | None => ONull
  end.

Definition on_items (f : fentry -> fentry) (c : list fsection) : list fsection :=
  map (fun s => {| f_offset := f_offset s; f_items := map f (f_items s); f_trailer := f_trailer s |}) c.
Definition is_null (o : obj) : bool := match o with ONull => true | _ => false end.
(** XrefUsedEntryBase::OnChanged and ObserveeChanged, xref_entry.cpp:58-69: an entry hears of the changes of the object it holds *)
Definition write_through (e : xentry) (v : obj) (x : fentry) : fentry :=
  if same_entry (shown (f_entry x)) e then
    match xdata (f_entry x) with
    | KUsed _ false => x
    | _ => {| f_entry := f_entry x; f_object := v; f_dirty := true |}
    end
  else x.
(** A program looks up an object and edits it, so that it becomes [v].  The null object, which is what missing objects read as, cannot
    be edited. *)
Definition change_object (n g : N) (v : obj) (c : list fsection) : list fsection :=
  match resolve_entry n g (memory_chain c) with
  | Some e => if is_null (content_of c e) then c else on_items (write_through e v) c
  | None => c
  end.

(** XrefBase::Add, xref.cpp:245-271, for an entry that holds an object *)
Fixpoint fadd (x : fentry) (l : list fentry) : list fentry :=
  match l with
  | [] => [x]
  | y :: r =>
      if xnum (f_entry x) <? xnum (f_entry y) then x :: l
      else if xnum (f_entry x) =? xnum (f_entry y) then x :: r
      else y :: fadd x r
  end.
(** File::AllocateNewEntry, file.cpp:931-1002, and SetReference *)
Definition create_object (v : obj) (d : document) : res (N * document) :=
  do '(i, _) <- allocate_from (S (chain_size (memory_chain (d_sections d)))) (d_next d) (memory_chain (d_sections d));;
  let x := {| f_entry := new_entry i; f_object := v; f_dirty := true |} in
  Ok (i, {| d_file := d_file d; d_next := i + 1;
            d_sections := match d_sections d with
                          | [] => []
                          | s :: t => {| f_offset := f_offset s; f_items := fadd x (f_items s); f_trailer := f_trailer s |} :: t
                          end |}).

(** CreateIncrementalXref, file_writer.cpp:1117-1188, on the entries of one section of the source: the object of every changed entry
    is taken out with ReleaseReference (xref_entry.cpp:125-148), which leaves the entry changed and not in use.  The flag says that the
    loop ended early: a compressed entry is released as well and then refused by the new table (xref.cpp:231-243). *)
Fixpoint release_items (l : list fentry) : list fentry * bool :=
  match l with
  | [] => ([], false)
  | x :: r =>
      if f_dirty x then
        match xdata (f_entry x) with
        | KUsed offset true =>
            let '(r', b) := release_items r in
            ({| f_entry := {| xnum := xnum (f_entry x); xgen := xgen (f_entry x); xdata := KUsed offset false |};
                f_object := ONull; f_dirty := true |} :: r', b)
        | KComp _ _ => ({| f_entry := f_entry x; f_object := ONull; f_dirty := true |} :: r, true)
        | _ => let '(r', b) := release_items r in (x :: r', b)
        end
      else let '(r', b) := release_items r in (x :: r', b)
  end.
Fixpoint release_sections (c : list fsection) : list fsection :=
  match c with
  | [] => []
  | s :: r =>
      let '(l, b) := release_items (f_items s) in
      {| f_offset := f_offset s; f_items := l; f_trailer := f_trailer s |} :: (if b then r else release_sections r)
  end.

Section Resave.
Variable real : bool -> N -> N -> dbl.
Variable hash : value -> N.
Variable order : list (xentry * obj) -> list N.
Variable arrange : list ditem -> list ditem.
(** the version in the header (FileWriter::CloneHeader, file_writer.cpp) *)
Variable v : version.

(** Read: File_GetIndirectObject; Change: editing an object that was looked up; Create: File_AllocateNewEntry and SetReference;
    Save: Document_Save; SaveUpdate: Document_SaveIncremental *)
Inductive action : Type := Read (n g : N) | Change (n g : N) (o : obj) | Create (o : obj) | SaveAll | SaveUpdate.
Inductive answer : Type := Shown (o : obj) | Done | Number (r : res N) | Written (r : res bytes).

Definition step (d : document) (a : action) : document * answer :=
  match a with
  | Read n g => (d, Shown (get (d_sections d) n g))
  | Change n g o => ({| d_file := d_file d; d_next := d_next d; d_sections := change_object n g o (d_sections d) |}, Done)
  | Create o =>
      match create_object o d with
      | Ok (i, d') => (d', Number (Ok i))
      | Throw e => (d, Number (Throw e))
      | Undef => (d, Number Undef)
      | NoFuel => (d, Number NoFuel)
      end
  | SaveAll => (d, Written (save_file real hash (content_of (d_sections d)) order arrange v (memory_chain (d_sections d))))
  | SaveUpdate =>
      ({| d_file := d_file d; d_next := d_next d; d_sections := release_sections (d_sections d) |},
       Written (write_incremental (d_file d) (d_sections d)))
  end.
Fixpoint run (d : document) (l : list action) : document * list answer :=
  match l with
  | [] => (d, [])
  | a :: r => let '(d1, x) := step d a in let '(d2, xs) := run d1 r in (d2, x :: xs)
  end.
End Resave.

(** The map from open files to their documents (semantics/utils/semantic_utils.cpp) and the opening and closing of documents
    (semantics/objects/document.cpp:26-146).

    A file object has an identity, the address of its memory and what reading it gives; it lives as long as the user holds it or a
    document does.  A document lives as long as the user holds it.  Addresses are given by the operating system: any address that no
    living file has.  Simplifications: one thread (document_map_lock serialises the map); the user holds one handle of each file and
    counts the handles of a document; the file is not changed between two attempts to read it. *)
From Coq Require Import List NArith Bool.
From Verif.Model Require Import Base.
Import ListNotations.
Local Open Scope N_scope.

Record file : Type := { f_id : N; f_address : N; f_readable : bool; f_held : bool }.
Record doc : Type := { d_id : N; d_file : N; d_handles : N }.
Record state : Type := {
  files : list file;      (* File objects that exist *)
  docs : list doc;        (* Document objects that exist *)
  mapping : list (N * N); (* document_map: address of the file, document its weak reference was made from *)
  next : N                (* identities given out so far *)
}.
Definition nothing_open : state := {| files := []; docs := []; mapping := []; next := 0 |}.

Definition find_file (s : state) (f : N) : option file := find (fun x => f_id x =? f) (files s).
Definition find_doc (s : state) (d : N) : option doc := find (fun x => d_id x =? d) (docs s).
Definition lookup (m : list (N * N)) (a : N) : option N := option_map snd (find (fun e => fst e =? a) m).
Definition erase (m : list (N * N)) (a : N) : list (N * N) := filter (fun e => negb (fst e =? a)) m.
(** operator[] and assignment, semantic_utils.cpp:106 *)
Definition assign (m : list (N * N)) (a d : N) : list (N * N) := (a, d) :: erase m a.

Definition address_used (s : state) (a : N) : bool := existsb (fun x => f_address x =? a) (files s).

(** files nobody holds any more are destroyed (reference counting, C37) *)
Definition kept (s : state) (x : file) : bool := f_held x || existsb (fun d => d_file d =? f_id x) (docs s).
Definition collect (s : state) : state :=
  {| files := filter (kept s) (files s); docs := docs s; mapping := mapping s; next := next s |}.

Inductive call : Type :=
| NewFile (address : N) (readable : bool)   (* File::Open *)
| OpenDocument (f : N)                      (* Document::OpenFile *)
| CloseFile (f : N)                         (* release of the user's handle *)
| CloseDocument (d : N).                    (* release of one handle *)

Inductive answer : Type :=
| AFile (f : N) | ADocument (d : N) | ADone
| AUnreadable   (* the error of reading the file *)
| ADisposed     (* "Object has been already disposed" *)
| ANotAllowed.  (* not a call of the API: no such handle, or an address in use *)

Definition with_handles (d : N) (f : N -> N) (y : doc) : doc :=
  if d_id y =? d then {| d_id := d_id y; d_file := d_file y; d_handles := f (d_handles y) |} else y.

(** Document::OpenFile, document.cpp:31-39, and Document::Document, 135-139.  When reading throws, the half constructed document is
    destroyed without its destructor: the mapping stays. *)
Definition open_document (s : state) (x : file) : state * answer :=
  match lookup (mapping s) (f_address x) with
  | Some d =>
      match find_doc s d with
      | Some _ => ({| files := files s; docs := map (with_handles d (fun n => n + 1)) (docs s);
                      mapping := mapping s; next := next s |}, ADocument d)
      | None => (s, ADisposed)
      end
  | None =>
      let d := next s in
      let m := assign (mapping s) (f_address x) d in
      if f_readable x then
        ({| files := files s; docs := {| d_id := d; d_file := f_id x; d_handles := 1 |} :: docs s; mapping := m; next := d + 1 |}, ADocument d)
      else ({| files := files s; docs := docs s; mapping := m; next := d + 1 |}, AUnreadable)
  end.

(** Document::~Document, document.cpp:145-147, when the last handle is released *)
Definition close_document (s : state) (y : doc) : state :=
  if 1 <? d_handles y then
    {| files := files s; docs := map (with_handles (d_id y) (fun n => n - 1)) (docs s); mapping := mapping s; next := next s |}
  else
    let m := match find_file s (d_file y) with Some x => erase (mapping s) (f_address x) | None => mapping s end in
    collect {| files := files s; docs := filter (fun z => negb (d_id z =? d_id y)) (docs s); mapping := m; next := next s |}.

Definition dropped (f : N) (z : file) : file :=
  if f_id z =? f then {| f_id := f_id z; f_address := f_address z; f_readable := f_readable z; f_held := false |} else z.

Definition step (s : state) (c : call) : state * answer :=
  match c with
  | NewFile a r =>
      if address_used s a then (s, ANotAllowed)
      else ({| files := {| f_id := next s; f_address := a; f_readable := r; f_held := true |} :: files s;
               docs := docs s; mapping := mapping s; next := next s + 1 |}, AFile (next s))
  | OpenDocument f =>
      match find_file s f with
      | Some x => if f_held x then open_document s x else (s, ANotAllowed)
      | None => (s, ANotAllowed)
      end
  | CloseFile f =>
      match find_file s f with
      | Some x => if f_held x then
                    (collect {| files := map (dropped f) (files s); docs := docs s; mapping := mapping s; next := next s |}, ADone)
                  else (s, ANotAllowed)
      | None => (s, ANotAllowed)
      end
  | CloseDocument d =>
      match find_doc s d with
      | Some y => (close_document s y, ADone)
      | None => (s, ANotAllowed)
      end
  end.

Fixpoint run (s : state) (cs : list call) : state * list answer :=
  match cs with
  | [] => (s, [])
  | c :: t => let '(s1, a) := step s c in let '(s2, l) := run s1 t in (s2, a :: l)
  end.

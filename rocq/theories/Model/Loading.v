(** Objects of a file are read when they are first asked for: File::GetIndirectObjectInternal and InitializeObjectStream
    (syntax/files/file.cpp:176-236, 804-901), XrefUsedEntry::Initialize, XrefCompressedEntry::Initialize, SetReference and GetReference
    (syntax/files/xref_entry.cpp:84-121, 150-286).
    Simplifications: sections have no hybrid streams; an entry whose object has another number (file.cpp:826-873) is not modelled; entries
    of several sections with the same number, generation and offset are read separately instead of sharing the object
    (xref_entry.cpp:187-227); reading an object from its offset does not load other objects (the Length of a stream is direct). *)
From Coq Require Import List NArith ZArith Bool String.
From Verif.Model Require Import Base Object Xref.
Import ListNotations.
Local Open Scope N_scope.

(** XrefUsedEntryBase (xref_entry.h:112-140) with the flags of its base: the object once it was read, IsInitialized, IsDirty, and whether
    the object has the attribute that marks an object stream as read (file.cpp:229-233) *)
Record slot : Type := { l_entry : xentry; l_obj : option obj; l_init : bool; l_dirty : bool; l_marked : bool }.
(** the chain of sections, newest first *)
Definition lstate := list (list slot).
Definition unread (e : xentry) : slot := {| l_entry := e; l_obj := None; l_init := false; l_dirty := false; l_marked := false |}.
(** the state after opening a file with these sections *)
Definition opened (c : list (list xentry)) : lstate := map (map unread) c.

(** XrefBase::Find *)
Definition slot_in (n : N) (l : list slot) : option slot := find (fun s => xnum (l_entry s) =? n) l.
(** XrefChain::GetXrefEntry, xref_chain.cpp:10-29: the section whose entry it is *)
Fixpoint newest_in (n g : N) (st : lstate) : option nat :=
  match st with
  | [] => None
  | l :: r =>
      match slot_in n l with
      | Some s => if xgen (l_entry s) =? g then Some O else option_map S (newest_in n g r)
      | None => option_map S (newest_in n g r)
      end
  end.
Definition at_slot (i : nat) (n : N) (st : lstate) : option slot := match nth_error st i with Some l => slot_in n l | None => None end.
(** changing an entry in place *)
Fixpoint change_in (n : N) (f : slot -> slot) (l : list slot) : list slot :=
  match l with
  | [] => []
  | s :: r => if xnum (l_entry s) =? n then f s :: r else s :: change_in n f r
  end.
Fixpoint change (i : nat) (n : N) (f : slot -> slot) (st : lstate) : lstate :=
  match st, i with
  | [], _ => []
  | l :: r, O => change_in n f l :: r
  | l :: r, S j => l :: change j n f r
  end.

(** SetReference, xref_entry.cpp:84-107: an entry that was initialised before becomes changed; then SetInitialized *)
Definition set_reference (o : obj) (s : slot) : slot :=
  {| l_entry := l_entry s; l_obj := Some o; l_init := true; l_dirty := l_dirty s || l_init s; l_marked := false |}.
(** GetReference after Initialize, 109-121: an entry that holds nothing gives null *)
Definition held (s : slot) : obj := match l_obj s with Some o => o | None => ONull end.
Definition mark (s : slot) : slot :=
  {| l_entry := l_entry s; l_obj := l_obj s; l_init := l_init s; l_dirty := l_dirty s; l_marked := true |}.

Section Loading.
(** Parser::ReadIndirectObject at an offset of the file (Model/FileWrite.v, read_indirect_object) *)
Variable read_at : N -> N -> Z -> res obj.
(** the numbers and objects in an object stream (Model/ObjStream.v, load_object_stream, after decoding) *)
Variable members : obj -> res (list (N * obj)).

(** File::InitializeObjectStream, file.cpp:208-227: every object of the stream becomes the object of the newest entry with its number
    and generation 0, whatever kind of used entry that is *)
Fixpoint place (l : list (N * obj)) (st : lstate) : res unit * lstate :=
  match l with
  | [] => (Ok tt, st)
  | (n, o) :: r =>
      match newest_in n 0 st with
      | None => (Throw EObjectMissing, st)
      | Some i =>
          match at_slot i n st with
          | None => (Throw EObjectMissing, st)
          | Some s =>
              match xdata (l_entry s) with
              | KFree _ => place r st
              | _ => place r (change i n (set_reference o) st)
              end
          end
      end
  end.

(** GetReference of the entry with number [n] of section [i]; for a compressed entry with InitializeObjectStream, which asks for the
    stream object first (file.cpp:180).  Nothing limits the depth of this recursion. *)
Fixpoint touch (fuel : nat) (i : nat) (n : N) (st : lstate) : res obj * lstate :=
  match fuel with
  | O => (NoFuel, st)
  | S f =>
      match at_slot i n st with
      | None => (Ok ONull, st)
      | Some s =>
          match xdata (l_entry s) with
          | KFree _ => (Ok ONull, st)
          | KUsed off _ =>
              if l_init s then (Ok (held s), st)
              else if (off =? -1)%Z then (Throw EGeneral, st)
              else
                match read_at n (xgen (l_entry s)) off with
                | Ok o => (Ok o, change i n (set_reference o) st)
                | Throw e => (Throw e, st)
                | Undef => (Undef, st)
                | NoFuel => (NoFuel, st)
                end
          | KComp k _ =>
              if l_init s then (Ok (held s), st)
              else
                let '(r, st1) :=
                  match newest_in k 0 st with
                  | None => (Ok ONull, st)
                  | Some j => touch f j k st
                  end in
                let '(r2, st2) :=
                  match r, newest_in k 0 st with
                  | Ok (OStream m d), Some j =>
                      if match at_slot j k st1 with Some t => l_marked t | None => false end then (Ok tt, st1)
                      else
                        match members (OStream m d) with
                        | Ok l =>
                            let '(p, st2) := place l st1 in
                            match p with
                            | Ok _ => (Ok tt, if existsb (fun x => fst x =? k) l then st2 else change j k mark st2)
                            | _ => (p, st2)
                            end
                        | Throw e => (Throw e, st1)
                        | Undef => (Undef, st1)
                        | NoFuel => (NoFuel, st1)
                        end
                  | Ok _, _ => (Throw EConversion, st1)
                  | Throw e, _ => (Throw e, st1)
                  | Undef, _ => (Undef, st1)
                  | NoFuel, _ => (NoFuel, st1)
                  end in
                match r2 with
                | Ok _ => (Ok (match at_slot i n st2 with Some t => held t | None => ONull end), st2)
                | Throw e => (Throw e, st2)
                | Undef => (Undef, st2)
                | NoFuel => (NoFuel, st2)
                end
          end
      end
  end.

(** File::GetIndirectObjectInternal, file.cpp:804-901 *)
Definition get_object (fuel : nat) (n g : N) (st : lstate) : res obj * lstate :=
  match newest_in n g st with
  | None => (Ok ONull, st)
  | Some i => touch fuel i n st
  end.

(** What a program does with the file: asks for an object; changes an object it asked for in place (the entry observes its object and
    becomes changed, xref_entry.cpp:55-70); or saves, which takes the object of every entry of every section, one after the other
    (FileWriter::CloneXref, file_writer.cpp:844-915) *)
Inductive lop : Type := LRead (n g : N) | LEdit (n g : N) (o : obj) | LTake (i : nat) (n : N).
Definition edited (o : obj) (s : slot) : slot :=
  {| l_entry := l_entry s; l_obj := Some o; l_init := l_init s; l_dirty := true; l_marked := l_marked s |}.
Definition lstep (fuel : nat) (x : lop) (st : lstate) : res obj * lstate :=
  match x with
  | LRead n g => get_object fuel n g st
  | LEdit n g o =>
      let '(r, st1) := get_object fuel n g st in
      match r, newest_in n g st1 with
      | Ok _, Some i =>
          match at_slot i n st1 with
          | Some s => match l_obj s with Some _ => (r, change i n (edited o) st1) | None => (r, st1) end
          | None => (r, st1)
          end
      | _, _ => (r, st1)
      end
  | LTake i n => touch fuel i n st
  end.
Fixpoint lrun (fuel : nat) (l : list lop) (st : lstate) : list (res obj) * lstate :=
  match l with
  | [] => ([], st)
  | x :: r => let '(a, st1) := lstep fuel x st in let '(b, st2) := lrun fuel r st1 in (a :: b, st2)
  end.
End Loading.

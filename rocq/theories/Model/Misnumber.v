(** Looking up objects when the cross-reference table gives other numbers than the objects themselves: File::GetIndirectObjectInternal
    (syntax/files/file.cpp:804-901), XrefUsedEntry::Initialize (syntax/files/xref_entry.cpp:150-260) and the container of a section
    (syntax/files/xref.cpp:245-335, xref.h:20). *)
From Coq Require Import List NArith ZArith Bool.
From Verif.Model Require Import Base Object.
Import ListNotations.
Local Open Scope N_scope.

(** What an entry holds: nothing (XrefFreeEntry), an object in the file at an offset, which is read once (XrefUsedEntry), or an object of
    an object stream (XrefCompressedEntry; stream number and index). *)
Inductive sdata : Type :=
| SFree
| SUsed (offset : Z) (loaded : option obj)
| SComp (stream index : N).

(** An element of std::unordered_set<XrefEntryBasePtr>, xref.h:20.  The hash of the entry is its number (xref_entry.cpp:295-300), two
    entries are equal when their numbers are (71-73), and the container keeps the hash it had when the entry was inserted: [sl_code].  Number and generation of the entry can change later. *)
Record slot : Type := { sl_code : N; sl_num : N; sl_gen : N; sl_data : sdata }.
(** the sections of the file, newest first; the order in a section is the order of the iteration *)
Definition table := list slot.

(** XrefBase::Find and Contains, xref.cpp:297-314: the element with the hash of [n] that is equal to [n] *)
Definition is_at (n : N) (s : slot) : bool := (sl_code s =? n) && (sl_num s =? n).
Fixpoint pick_slot (n : N) (t : table) : option (table * slot * table) :=
  match t with
  | [] => None
  | s :: r =>
      if is_at n s then Some ([], s, r)
      else match pick_slot n r with Some (a, x, b) => Some (s :: a, x, b) | None => None end
  end.
(** XrefChain::Contains and GetXrefEntry, xref_chain.cpp:10-49: sections that list the number with another generation are passed over *)
Fixpoint pick (n g : N) (c : list table) : option (list table * (table * slot * table) * list table) :=
  match c with
  | [] => None
  | t :: r =>
      let next := match pick n g r with Some (c1, x, c2) => Some (t :: c1, x, c2) | None => None end in
      match pick_slot n t with
      | Some (a, s, b) => if sl_gen s =? g then Some ([], (a, s, b), r) else next
      | None => next
      end
  end.

(** XrefBase::Add, xref.cpp:245-271, into a container whose hashes are up to date: an entry with the same number is replaced *)
Definition insert_slot (t : table) (s : slot) : table :=
  filter (fun x => negb (sl_num x =? sl_num s)) t ++ [{| sl_code := sl_num s; sl_num := sl_num s; sl_gen := sl_gen s; sl_data := sl_data s |}].

Section Lookup.
(** Parser::ReadIndirectObject, parser.cpp:312-334, at an offset: number, generation and object as they are written in the file *)
Variable read_at : Z -> res (N * N * obj).
(** XrefCompressedEntry::Initialize, xref_entry.cpp:262-288 *)
Variable read_compressed : N -> N -> res obj.
(** XrefBase::Entries, xref.cpp:316-330: sorted by number.  std::sort leaves the order of entries with the same number open, so the
    order is a parameter. *)
Variable arrange : table -> table.

(** XrefUsedEntry::Initialize, xref_entry.cpp:150-260: the numbers of the object replace those of the entry.  Taking the object from
    another entry with the same numbers and offset (187-225) gives the same, because that entry was read from the same place. *)
Definition load (s : slot) : res slot :=
  match sl_data s with
  | SFree => Ok s
  | SUsed _ (Some _) => Ok s
  | SUsed off None =>
      do '(n, g, o) <- read_at off;;
      Ok {| sl_code := sl_code s; sl_num := n; sl_gen := g; sl_data := SUsed off (Some o) |}
  | SComp a b => do _ <- read_compressed a b;; Ok s
  end.
(** the inner loop at file.cpp:842-850: the entries are read one after the other *)
Fixpoint load_table (t : table) : table * res unit :=
  match t with
  | [] => ([], Ok tt)
  | s :: r =>
      match load s with
      | Ok s' => let '(r', x) := load_table r in (s' :: r', x)
      | Throw e => (t, Throw e)
      | Undef => (t, Undef)
      | NoFuel => (t, NoFuel)
      end
  end.
(** file.cpp:841-868: every section is read and its container filled again *)
Definition refill (t : table) : table := fold_left insert_slot (arrange t) [].
Fixpoint recover (c : list table) : list table * res unit :=
  match c with
  | [] => ([], Ok tt)
  | t :: r =>
      match load_table t with
      | (t', Ok tt) => let '(r', x) := recover r in (refill t' :: r', x)
      | (t', x) => (t' :: r, x)
      end
  end.

(** the object of an entry that was read; XrefUsedEntryBase::GetReference, xref_entry.cpp:107-115.  Simplification: entries whose reference
    was released are left out. *)
Definition held (s : slot) : option obj := match sl_data s with SUsed _ o => o | _ => None end.

(** File::GetIndirectObjectInternal, file.cpp:804-901: the state afterwards and the object; [None] is the null object *)
Definition lookup (c : list table) (n g : N) : list table * res (option obj) :=
  match pick n g c with
  | None => (c, Ok None)
  | Some (c1, (a, s, b), c2) =>
      match sl_data s with
      | SFree => (c, Ok None)
      | SComp i j => (c, do o <- read_compressed i j;; Ok (Some o))
      | SUsed _ _ =>
          match load s with
          | Throw e => (c, Throw e)
          | Undef => (c, Undef)
          | NoFuel => (c, NoFuel)
          | Ok s' =>
              let c' := c1 ++ (a ++ s' :: b) :: c2 in
              if (sl_num s' =? n) && (sl_gen s' =? g) then (c', Ok (held s'))
              else
                match recover c' with
                | (c3, Ok tt) =>
                    match pick n g c3 with
                    | None => (c3, Throw EObjectMissing)
                    | Some (_, (_, s3, _), _) => match sl_data s3 with SUsed _ _ => (c3, Ok (held s3)) | _ => (c3, Throw EConversion) end
                    end
                | (c3, Throw e) => (c3, Throw e)
                | (c3, Undef) => (c3, Undef)
                | (c3, NoFuel) => (c3, NoFuel)
                end
          end
      end
  end.
Fixpoint lookups (c : list table) (l : list (N * N)) : list table :=
  match l with
  | [] => c
  | (n, g) :: r => lookups (fst (lookup c n g)) r
  end.
End Lookup.

(** Reference objects that a program holds, the objects they refer to and the cross-reference entries these objects are kept in:
    syntax/objects/indirect_reference_object.cpp, syntax/objects/object.cpp, syntax/files/xref_entry.cpp and the functions of the C interface
    for them (implementation/syntax/c_indirect_reference_object.cpp, c_xref.cpp, c_file.cpp, c_null_object.cpp).

    Objects, entries and references are given by numbers: the k-th object the program creates is object k, object 0 is the only null object
    (null_object.cpp: GetInstance); the k-th entry allocated in the new file has number k (Model/Update.v, File::AllocateNewEntry) and
    generation 0; references are counted as objects are.

    Simplifications: the file stays open; all entries are allocated ones, that is initialized, so XrefUsedEntry::Initialize does nothing
    (xref_entry.cpp:147-150); of the handles of an object or an entry only counts whether there is one; objects are not put into
    containers (a container keeps its elements alive as a handle does). *)
From Coq Require Import List Arith Bool.
From Verif.Model Require Import Base.
Import ListNotations.

(** an object: whether the program holds it, and m_entry (object.h), a weak reference *)
Record obj_st : Type := { held : bool; entry : option nat }.
(** an entry: whether the section contains it, whether the program holds it, and _reference (xref_entry.h:128-131; None: not m_used) *)
Record ent_st : Type := { in_table : bool; kept : bool; refers : option nat }.
(** a reference: m_reference_object_number, m_reference (weak), m_hash_cache (indirect_reference_object.h:49-53), and whether it has a file *)
Record ref_st : Type := { backup : nat; target : option nat; hashed : nat; has_file : bool }.

Record state : Type := {
  objs : nat -> obj_st; nobjs : nat;
  ents : nat -> ent_st; nents : nat;
  refs : nat -> ref_st; nrefs : nat }.

Definition upd {A} (f : nat -> A) (k : nat) (v : A) : nat -> A := fun i => if i =? k then v else f i.
Definition with_objs (s : state) (f : nat -> obj_st) : state :=
  {| objs := f; nobjs := nobjs s; ents := ents s; nents := nents s; refs := refs s; nrefs := nrefs s |}.
Definition with_ents (s : state) (f : nat -> ent_st) : state :=
  {| objs := objs s; nobjs := nobjs s; ents := f; nents := nents s; refs := refs s; nrefs := nrefs s |}.
Definition with_refs (s : state) (f : nat -> ref_st) : state :=
  {| objs := objs s; nobjs := nobjs s; ents := ents s; nents := nents s; refs := f; nrefs := nrefs s |}.

Definition set_entry (s : state) (o : nat) (e : option nat) : state :=
  with_objs s (upd (objs s) o {| held := held (objs s o); entry := e |}).
Definition set_held (s : state) (o : nat) (b : bool) : state :=
  with_objs s (upd (objs s) o {| held := b; entry := entry (objs s o) |}).
Definition set_refers (s : state) (n : nat) (o : option nat) : state :=
  with_ents s (upd (ents s) n {| in_table := in_table (ents s n); kept := kept (ents s n); refers := o |}).

(** a new file: no objects but null, which the process always has *)
Definition init : state := {|
  objs := fun o => {| held := o =? 0; entry := None |}; nobjs := 0;
  ents := fun _ => {| in_table := false; kept := false; refers := None |}; nents := 0;
  refs := fun _ => {| backup := 0; target := None; hashed := 0; has_file := false |}; nrefs := 0 |}.

(** WeakReference::IsActive (utils/unknown_interface.h:67-69): the object is there while a handle or an entry holds it *)
Definition entry_alive (s : state) (n : nat) : bool := in_table (ents s n) || kept (ents s n).
Definition obj_alive (s : state) (o : nat) : bool :=
  (o =? 0) || held (objs s o)
  || existsb (fun n => match refers (ents s n) with Some p => p =? o | None => false end) (seq 1 (nents s)).

(** Object::IsIndirect and GetObjectNumber, object.cpp:79-92, 126-144 *)
Definition is_indirect (s : state) (o : nat) : option nat :=
  match entry (objs s o) with
  | Some n => if entry_alive s n then Some n else None
  | None => None
  end.
Definition object_number (s : state) (o : nat) : res nat :=
  match is_indirect s o with Some n => Ok n | None => Throw EGeneral end.

(** IndirectReferenceObject::IsReferenceInitialized, indirect_reference_object.cpp:61-71: the object remembered, if it counts *)
Definition remembered (s : state) (r : nat) : option nat :=
  match target (refs s r) with
  | Some o => if obj_alive s o && negb (o =? 0) then Some o else None
  | None => None
  end.
(** GetReferencedObjectNumber, 20-30 (GetReferencedGenerationNumber, 32-42, fails in the same cases) *)
Definition number (s : state) (r : nat) : res nat :=
  match remembered s r with
  | Some o => object_number s o
  | None => Ok (backup (refs s r))
  end.

(** File::GetIndirectObjectInternal, file.cpp:805-811 and 815-818 with XrefUsedEntryBase::GetReference, xref_entry.cpp:107-115 *)
Definition indirect_object (s : state) (n : nat) : nat :=
  if in_table (ents s n) then match refers (ents s n) with Some o => o | None => 0 end else 0.

(** GetReferencedObject, indirect_reference_object.cpp:175-197, and the handle that the C function gives out (c_indirect_reference_object.cpp:23-36) *)
Definition get_referenced (s : state) (r : nat) : state * res nat :=
  match remembered s r with
  | Some o => (set_held s o true, Ok o)
  | None =>
      if has_file (refs s r) then
        let o := indirect_object s (backup (refs s r)) in
        let x := refs s r in
        (set_held (with_refs s (upd (refs s) r {| backup := backup x; target := Some o; hashed := hashed x; has_file := has_file x |})) o true, Ok o)
      else (s, Throw EFileDisposed)
  end.

(** SetReferencedObject, 151-173; OnChanged resets the hash, 115-119 *)
Definition set_referenced (s : state) (r o : nat) : state * res unit :=
  let x := refs s r in
  match is_indirect s o with
  | Some n => (with_refs s (upd (refs s) r {| backup := n; target := Some o; hashed := 0; has_file := has_file x |}), Ok tt)
  | None =>
      if o =? 0 then (with_refs s (upd (refs s) r {| backup := backup x; target := Some o; hashed := 0; has_file := has_file x |}), Ok tt)
      else (s, Throw EGeneral)
  end.

(** Hash, 121-137: std::hash of an integer is the integer (libstdc++), the generation is 0 *)
Definition hash (s : state) (r : nat) : state * res nat :=
  let x := refs s r in
  if negb (hashed x =? 0) then (s, Ok (hashed x))
  else match number s r with
       | Ok n => (with_refs s (upd (refs s) r {| backup := backup x; target := target x; hashed := n; has_file := has_file x |}), Ok n)
       | Throw e => (s, Throw e)
       | Undef => (s, Undef)
       | NoFuel => (s, NoFuel)
       end.

(** Equals, 199-211 *)
Definition equals (s : state) (r r' : nat) : res bool :=
  match number s r, number s r' with
  | Ok n, Ok n' => Ok (n =? n')
  | Ok _, Throw e => Throw e
  | Throw e, _ => Throw e
  | _, _ => Undef
  end.

(** XrefUsedEntryBase::ReleaseReference(true), xref_entry.cpp:125-145: the entry of the object that was there is cleared whatever it is,
    Object::ClearXrefEntry(false) (object.cpp:104-116); the assertions are compiled out *)
Definition release_reference (s : state) (n : nat) : state :=
  match refers (ents s n) with
  | Some o => set_refers (set_entry s o None) n None
  | None => s
  end.
(** XrefUsedEntryBase::SetReference, xref_entry.cpp:83-105 *)
Definition set_reference (s : state) (n o : nat) : state := set_entry (set_refers (release_reference s n) n (Some o)) o (Some n).

(** an entry that nothing holds is destroyed: ReleaseReference(false), xref_entry.cpp:54-56, the object keeps its (inactive) weak reference *)
Definition set_holders (s : state) (n : nat) (t k : bool) : state :=
  with_ents s (upd (ents s) n {| in_table := t; kept := k; refers := if t || k then refers (ents s n) else None |}).

(** What a program does.  NewObject: IntegerObject_Create or any other object that is not null; Allocate: File_AllocateNewEntry;
    Place: XrefUsedEntry_SetReference; NewReference: IndirectReferenceObject_Create; ReadReference: a reference with the given number that was
    read from the file (parser.cpp: ReadIndirectReference sets the file); FindEntry, RemoveEntry: Xref_Find, Xref_Remove; Fetch:
    File_GetIndirectObject; Number and Text: IndirectReferenceObject_GetReferencedObjectNumber and Object_ToPdf. *)
Inductive op : Type :=
| NewObject | Allocate | NewReference | ReadReference (n : nat)
| Place (n o : nat) | FindEntry (n : nat) | RemoveEntry (n : nat) | Fetch (n : nat)
| Release (o : nat) | ReleaseEntry (n : nat)
| PointAt (r o : nat) | Number (r : nat) | Text (r : nat) | Target (r : nat) | Hash (r : nat) | Equal (r r' : nat).

Inductive answer : Type :=
| AObject (o : nat) | AEntry (n : nat) | AReference (r : nat) | ANumber (n : nat) | ABool (b : bool) | ADone
| AError (e : exn)      (* the function returns an error code *)
| ACrash                (* an exception leaves a function of the C interface *)
| AMisuse.              (* the program does not have a handle it would need: not a call it can make *)

Definition answer_of {A} (f : A -> answer) (x : res A) : answer :=
  match x with Ok a => f a | Throw e => AError e | _ => ACrash end.
(** IndirectReferenceObject_GetReferencedObjectNumber, c_indirect_reference_object.cpp:51-59, has no try block *)
Definition uncaught {A} (f : A -> answer) (x : res A) : answer :=
  match x with Ok a => f a | _ => ACrash end.

Definition is_ref (s : state) (r : nat) : bool := (1 <=? r) && (r <=? nrefs s).
Definition new_reference (s : state) (n : nat) (file : bool) : state * answer :=
  let r := S (nrefs s) in
  ({| objs := objs s; nobjs := nobjs s; ents := ents s; nents := nents s;
      refs := upd (refs s) r {| backup := n; target := None; hashed := 0; has_file := file |}; nrefs := r |}, AReference r).

Definition step (s : state) (p : op) : state * answer :=
  match p with
  | NewObject =>
      let o := S (nobjs s) in
      ({| objs := upd (objs s) o {| held := true; entry := None |}; nobjs := o; ents := ents s; nents := nents s;
          refs := refs s; nrefs := nrefs s |}, AObject o)
  | Allocate =>
      let n := S (nents s) in
      ({| objs := objs s; nobjs := nobjs s; ents := upd (ents s) n {| in_table := true; kept := true; refers := None |}; nents := n;
          refs := refs s; nrefs := nrefs s |}, AEntry n)
  | NewReference => new_reference s 0 false
  | ReadReference n => new_reference s n true
  | Place n o => if kept (ents s n) && held (objs s o) then (set_reference s n o, ADone) else (s, AMisuse)
  | FindEntry n => if in_table (ents s n) then (set_holders s n true true, AEntry n) else (s, AError EObjectMissing)
  | RemoveEntry n => if in_table (ents s n) then (set_holders s n false (kept (ents s n)), ABool true) else (s, ABool false)
  | Fetch n => (set_held s (indirect_object s n) true, AObject (indirect_object s n))
  | Release o => (set_held s o false, ADone)
  | ReleaseEntry n => (set_holders s n (in_table (ents s n)) false, ADone)
  | PointAt r o =>
      if is_ref s r && held (objs s o) then let '(s', x) := set_referenced s r o in (s', answer_of (fun _ => ADone) x) else (s, AMisuse)
  | Number r => if is_ref s r then (s, uncaught ANumber (number s r)) else (s, AMisuse)
  | Text r => if is_ref s r then (s, answer_of ANumber (number s r)) else (s, AMisuse)
  | Target r => if is_ref s r then let '(s', x) := get_referenced s r in (s', answer_of AObject x) else (s, AMisuse)
  | Hash r => if is_ref s r then let '(s', x) := hash s r in (s', answer_of ANumber x) else (s, AMisuse)
  | Equal r r' => if is_ref s r && is_ref s r' then (s, answer_of ABool (equals s r r')) else (s, AMisuse)
  end.

Fixpoint run (s : state) (h : list op) : state * list answer :=
  match h with
  | [] => (s, [])
  | p :: h' => let '(s1, a) := step s p in let '(s2, l) := run s1 h' in (s2, a :: l)
  end.

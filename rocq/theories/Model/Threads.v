(** Objects of one open file asked for by several threads at once: XrefUsedEntry::Initialize, XrefCompressedEntry::Initialize,
    SetReference and GetReference (syntax/files/xref_entry.cpp:84-117, 150-285), File::InitializeObjectStream and GetIndirectObject
    (syntax/files/file.cpp:176-236, 792-816), the part of Parser::ReadDictionaryStream that looks up the Length of a stream
    (syntax/parsers/parser.cpp:131-178), StreamObject::GetBodyRaw (syntax/objects/stream_object.cpp:161-200) and
    InputStream::ExclusiveInputLock (utils/streams/input_stream.cpp:144-150).

    Simplifications: every step below is atomic and the memory is sequentially consistent; all mutexes are std::recursive_mutex behind
    scope guards, so a thread holds a mutex exactly while one of its calls is inside the guarded scope, and a mutex has no state of its own;
    releasing a mutex is joined to the step before it when nothing lies between them; every number has at most one entry (no updates, no
    hybrid streams, xref_entry.cpp:187-227); nothing throws; what the bytes of an object mean is a parameter; objects are not changed
    while they are loaded; the mutex of an indirect reference (indirect_reference_object.cpp:174-196) is left out, because the reference
    in Length belongs to the stream that is being read; the mutex of a stream (stream_object.cpp:167) too, because only the thread in
    InitializeObjectStream reads the data of an object stream here. *)
From Coq Require Import List NArith ZArith Bool PeanoNat.
From Verif.Model Require Import Base.
Import ListNotations.

(** Where an object is: in the file itself, with the offset of its stream data (or just its own offset) and the object its Length refers
    to if that is an indirect reference (XrefUsedEntry); or in an object stream (XrefCompressedEntry).  xref_entry.h:142-230 *)
Inductive where_is : Type :=
| Own (data : Z) (len : option N)
| Inside (s : N).

(** m_access_lock of an entry (xref_entry.h:136), the mutex of the input (input_stream.h:36), File::m_object_stream_lock (file.h:152) *)
Inductive lock : Type := LEntry (n : N) | LInput | LStreams.

Section Threads.
(** what an object holds *)
Context {V : Type}.
(** the cross-reference section *)
Variable entry : N -> option where_is.
(** ReadIndirectObject of an object in the file: what is read when the input stands at this position at the time the Length of the stream
    is applied (SetInputPosition(length, Current), parser.cpp:163), and where the input is left *)
Variable parse : N -> Z -> V * Z.
(** ReadObjectStreamEntries of the data of an object stream at this position *)
Variable unpack : N -> Z -> list (N * V).

(** a step inside XrefUsedEntry::Initialize *)
Inductive own_at : Type :=
| OLock                   (* wait for the entry, line 163 *)
| OAgain                  (* the second look at the flag, 165 *)
| OInput                  (* wait for the input, 181 *)
| OSeek                   (* remember the position, 231; go to the object and read up to its stream data, 246 *)
| OLength (p : Z)         (* the Length of the stream, parser.cpp:158-162 *)
| ORead (p : Z)           (* the rest of the object, parser.cpp:163-178 *)
| OStore (p : Z) (v : V)  (* SetReference, 255 *)
| OFlag (p : Z)           (* SetInitialized, 256 *)
| ORewind (p : Z)         (* the two scope guards of the input, 233-239 and 183-187 *)
| ORelease.               (* the guard of the entry *)
(** a step inside InitializeObjectStream *)
Inductive in_at : Type :=
| CLock                                     (* wait for m_object_stream_lock, file.cpp:178 *)
| CStream                                   (* GetIndirectObject of the object stream, 180 *)
| CCheck                                    (* the attribute that marks it as read, 183-190 *)
| CInput                                    (* GetBody: wait for the input, stream_object.cpp:184 *)
| CSeek                                     (* 185 *)
| CUnpack                                   (* read the data and go back to where they start, 187-196; parse them, file.cpp:205 *)
| CMembers (l : list (N * V))               (* the loop, 209: wait for the entry of the next member, xref_entry.cpp:85 *)
| CStore (m : N) (v : V) (l : list (N * V)) (* SetReference of a member, file.cpp:223 *)
| CFlag (m : N) (l : list (N * V))          (* SetInitialized of a member, 224 *)
| CRelease.                                 (* the guard of m_object_stream_lock *)
(** a call that has not returned: of the Initialize of the entry of an object, or of InitializeObjectStream *)
Inductive frame : Type :=
| FOwn (n : N) (a : own_at)
| FIn (s : N) (a : in_at).

(** the object that was made for a number: its identity and what it holds *)
Definition made : Type := (nat * V)%type.
(** what the threads share: the position of the input, IsInitialized and _reference of every entry, which object streams have the
    attribute, and a counter for the identities of objects *)
Record shared : Type := { pos : Z; flag : N -> bool; slot : N -> option made; opened : N -> bool; next : nat }.
(** a thread: its calls, innermost first; the object it is asking for; the objects it will ask for, and what it got so far, last first *)
Record thread : Type := { frames : list frame; asking : option N; todo : list N; got : list (N * option made) }.
Record state : Type := { sh : shared; threads : nat -> thread }.

(** the guarded scopes *)
Definition holds (f : frame) (l : lock) : bool :=
  match f, l with
  | FOwn n (OLock), LEntry _ => false
  | FOwn n _, LEntry m => N.eqb n m
  | FOwn _ (OSeek | OLength _ | ORead _ | OStore _ _ | OFlag _ | ORewind _), LInput => true
  | FIn _ CLock, LStreams => false
  | FIn _ _, LStreams => true
  | FIn _ (CSeek | CUnpack), LInput => true
  | FIn _ (CStore m _ _), LEntry n => N.eqb m n
  | _, _ => false
  end.
Definition held (th : thread) (l : lock) : bool := existsb (fun f => holds f l) (frames th).
(** std::recursive_mutex::lock returns unless another thread holds the mutex *)
Definition free_for (st : state) (t : nat) (l : lock) : Prop := forall u, u <> t -> held (threads st u) l = false.

Definition at_pos (s : shared) (p : Z) : shared := {| pos := p; flag := flag s; slot := slot s; opened := opened s; next := next s |}.
Definition with_flag (s : shared) (n : N) : shared :=
  {| pos := pos s; flag := fun m => if N.eqb m n then true else flag s m; slot := slot s; opened := opened s; next := next s |}.
Definition with_slot (s : shared) (n : N) (v : V) : shared :=
  {| pos := pos s; flag := flag s; slot := fun m => if N.eqb m n then Some (next s, v) else slot s m; opened := opened s; next := S (next s) |}.
Definition with_opened (s : shared) (n : N) : shared :=
  {| pos := pos s; flag := flag s; slot := slot s; opened := fun m => if N.eqb m n then true else opened s m; next := next s |}.

(** GetIndirectObject, file.cpp:804-816, up to the first look at IsInitialized without any mutex (xref_entry.cpp:151 and 260): the call that
    has to be made, if any *)
Definition call (s : shared) (n : N) : list frame :=
  match entry n with
  | None => []
  | Some (Own _ _) => if flag s n then [] else [FOwn n OLock]
  | Some (Inside k) => if flag s n then [] else [FIn k CLock]
  end.
(** the offset of the data of an object *)
Definition data_of (n : N) : Z := match entry n with Some (Own d _) => d | _ => 0%Z end.
Definition len_of (n : N) : option N := match entry n with Some (Own _ l) => l | _ => None end.

(** the next step of the innermost call: the mutex it waits for, and the calls and the shared state after it *)
Definition needs (f : frame) : option lock :=
  match f with
  | FOwn n OLock => Some (LEntry n)
  | FOwn _ OInput => Some LInput
  | FIn _ CLock => Some LStreams
  | FIn _ CInput => Some LInput
  | FIn _ (CMembers ((m, _) :: _)) => Some (LEntry m)
  | _ => None
  end.
Definition advance (s : shared) (f : frame) : list frame * shared :=
  match f with
  | FOwn n a =>
      match a with
      | OLock => ([FOwn n OAgain], s)
      | OAgain => (if flag s n then [] else [FOwn n OInput], s)
      | OInput => ([FOwn n OSeek], s)
      | OSeek => ([FOwn n (OLength (pos s))], at_pos s (data_of n))
      | OLength p => ((match len_of n with Some k => call s k | None => [] end) ++ [FOwn n (ORead p)], s)
      | ORead p => ([FOwn n (OStore p (fst (parse n (pos s))))], at_pos s (snd (parse n (pos s))))
      | OStore p v => ([FOwn n (OFlag p)], with_slot s n v)
      | OFlag p => ([FOwn n (ORewind p)], with_flag s n)
      | ORewind p => ([FOwn n ORelease], at_pos s p)
      | ORelease => ([], s)
      end
  | FIn k a =>
      match a with
      | CLock => ([FIn k CStream], s)
      | CStream => (call s k ++ [FIn k CCheck], s)
      | CCheck => ([FIn k (if opened s k then CRelease else CInput)], s)
      | CInput => ([FIn k CSeek], s)
      | CSeek => ([FIn k CUnpack], at_pos s (data_of k))
      | CUnpack => ([FIn k (CMembers (unpack k (pos s)))], at_pos s (data_of k))
      | CMembers [] => ([FIn k CRelease], with_opened s k)
      | CMembers ((m, v) :: l) => ([FIn k (CStore m v l)], s)
      | CStore m v l => ([FIn k (CFlag m l)], with_slot s m v)
      | CFlag m l => ([FIn k (CMembers l)], with_flag s m)
      | CRelease => ([], s)
      end
  end.

Definition put (st : state) (t : nat) (s : shared) (th : thread) : state :=
  {| sh := s; threads := fun u => if Nat.eqb u t then th else threads st u |}.

(** one step of thread [t]; a thread outside of any call returns the object it asked for (GetReference, xref_entry.cpp:109-117), or asks
    for the next one *)
Inductive step (t : nat) (st : state) : state -> Prop :=
| step_inside : forall f r,
    frames (threads st t) = f :: r ->
    match needs f with Some l => free_for st t l | None => True end ->
    step t st (put st t (snd (advance (sh st) f))
      {| frames := fst (advance (sh st) f) ++ r; asking := asking (threads st t); todo := todo (threads st t); got := got (threads st t) |})
| step_return : forall n,
    frames (threads st t) = [] -> asking (threads st t) = Some n ->
    step t st (put st t (sh st)
      {| frames := []; asking := None; todo := todo (threads st t); got := (n, slot (sh st) n) :: got (threads st t) |})
| step_ask : forall n l,
    frames (threads st t) = [] -> asking (threads st t) = None -> todo (threads st t) = n :: l ->
    step t st (put st t (sh st)
      {| frames := call (sh st) n; asking := Some n; todo := l; got := got (threads st t) |}).

(** a file after it was opened: nothing was read yet *)
Definition fresh (p : Z) : shared := {| pos := p; flag := fun _ => false; slot := fun _ => None; opened := fun _ => false; next := 0 |}.
Definition start (p : Z) (program : nat -> list N) : state :=
  {| sh := fresh p; threads := fun t => {| frames := []; asking := None; todo := program t; got := [] |} |}.

(** any number of steps of any threads, in any order *)
Inductive runs : nat -> state -> state -> Prop :=
| runs_none : forall st, runs 0 st st
| runs_step : forall k t st st' st'', step t st st' -> runs k st' st'' -> runs (S k) st st''.

End Threads.

(** Observers of the file writer: utils/observable_interface.h, syntax/files/file_writer.{h,cpp},
    implementation/syntax/c_file_writer.cpp, implementation/syntax/c_file_writer_observer.cpp.

    Simplifications: a callback answers, subscribes, unsubscribes or releases, it does not change the objects or the output it is
    given; one writer and one thread; the flags of the writer are the default ones; the document is one cross-reference table and its
    objects, as in Model/FileWrite (cloning and optimising it come before). *)
From Coq Require Import List NArith ZArith Bool PeanoNat.
From Verif.Model Require Import Base Numbers SMap Object Xref StartXref Header FileWrite.
Import ListNotations.
Local Open Scope N_scope.

(** the callbacks of IFileWriterObserver, file_writer.h:13-31, with what the observer can ask about the argument: number and
    generation, and the offset an entry or an object has by then *)
Inductive event : Type :=
| EInitializing
| EFinalizing
| EBeforeWrite (num gen : N)
| EAfterWrite (num gen : N)
| EBeforeObjectOffset (num gen : N)
| EAfterObjectOffset (num gen : N) (offset : Z)
| EBeforeEntryOffset (num gen : N) (offset : Z)
| EAfterEntryOffset (num gen : N) (offset : Z)
| EBeforeFlush
| EAfterFlush.

(** what the writer does, in the order in which it does it *)
Inductive step : Type :=
| Put (b : bytes)          (* output->Write *)
| Tell (ev : event)        (* a loop over the observers, file_writer.h:35-93 *)
| FlushOut                 (* output->Flush(), file_writer.cpp:79 *)
| Fail (e : res unit).     (* an exception leaves the function, or worse *)

(** FileWriter::WriteObject, file_writer.cpp:1228-1257.  ToPdfStreamUpdateOffset (object.cpp:65-76) does not change the offset of an
    indirect object. *)
Definition object_steps (pos num gen : N) (o : obj) : list step :=
  [Tell (EBeforeObjectOffset num gen); Tell (EAfterObjectOffset num gen (Z.of_N pos)); Tell (EBeforeWrite num gen);
   Put (write_object num gen o); Tell (EAfterWrite num gen)].

(** FileWriter::WriteEntry, file_writer.cpp:1209-1226: only an entry that is not in an object stream has an offset *)
Definition entry_steps (pos : N) (e : xentry) (o : obj) : list step :=
  match xdata e with
  | KUsed old _ => [Tell (EBeforeEntryOffset (xnum e) (xgen e) old); Tell (EAfterEntryOffset (xnum e) (xgen e) (Z.of_N pos))]
  | _ => []
  end ++ object_steps pos (xnum e) (xgen e) o.

(** FileWriter::WriteXrefObjects, file_writer.cpp:935-988, for a table without hybrid stream *)
Fixpoint objects_steps (pos : N) (l : list (xentry * obj)) : list step :=
  match l with
  | [] => []
  | (e, o) :: t =>
      match xdata e with
      | KFree _ => objects_steps pos t
      | KUsed _ false => objects_steps pos t
      | _ => entry_steps pos e o ++ objects_steps (pos + N.of_nat (List.length (write_object (xnum e) (xgen e) o))) t
      end
  end.

(** FileWriter::Write, file_writer.cpp:34-86 with WriteXrefChain 1318-1352, for a source and a destination that are initialized.
    Simplification: a table whose writing throws puts nothing. *)
Definition save_steps (v : version) (l : list (xentry * obj)) (trailer : list (bytes * obj)) : list step :=
  let hdr := write_header v in
  [Tell EInitializing; Put hdr] ++
  match recalculate_lengths l with
  | Ok l1 =>
      let pos := N.of_nat (List.length hdr) in
      let '(body, l2) := write_objects None pos l1 in
      let trailer' := set_size trailer (recalculate_size (map fst l1)) in
      objects_steps pos l1 ++ [Put [10]] ++
      match write_xref_table (map fst l2) (ODict trailer') with
      | Ok table => [Put table; Put (write_xref_offset (Z.of_nat (List.length (hdr ++ body ++ [10]))));
                     Tell EBeforeFlush; FlushOut; Tell EAfterFlush; Tell EFinalizing]
      | Throw e => [Fail (Throw e)]
      | Undef => [Fail Undef]
      | NoFuel => [Fail NoFuel]
      end
  | Throw e => [Fail (Throw e)]
  | Undef => [Fail Undef]
  | NoFuel => [Fail NoFuel]
  end.

(** An observer: its address and whether it was not released yet (the flag of its weak references, unknown_interface.h:187-191).  It
    is known by its place in the list of all observers ever made. *)
Record observer : Type := { address : N; alive : bool }.
Definition no_observer : observer := {| address := 0; alive := false |}.

(** the program and the set of weak references of the writer, m_observers of IObservable, observable_interface.h:76 *)
Record world : Type := { made : list observer; table : list nat }.
Definition address_of (w : world) (i : nat) : N := address (nth i (made w) no_observer).
Definition is_alive (w : world) (i : nat) : bool := alive (nth i (made w) no_observer).

(** WeakReference::Identity and Hash, unknown_interface.h:47-60: weak references with the same pointer are the same key *)
Definition same_key (w : world) (i j : nat) : bool := address_of w i =? address_of w j.
Definition key_of (w : world) (i : nat) : option nat := find (same_key w i) (table w).

(** IObservable::Subscribe, observable_interface.h:13-23 and 45-48 *)
Definition subscribe (w : world) (i : nat) : world :=
  match key_of w i with
  | Some _ => w
  | None => {| made := made w; table := i :: table w |}
  end.

(** IObservable::Unsubscribe, observable_interface.h:25-38 and 55-58; the C function drops the answer, c_file_writer.cpp:63-73 *)
Definition unsubscribe (w : world) (i : nat) : world :=
  match key_of w i with
  | Some k => {| made := made w; table := filter (fun j => negb (Nat.eqb k j)) (table w) |}
  | None => w
  end.

Fixpoint set_dead (l : list observer) (i : nat) : list observer :=
  match l, i with
  | [], _ => []
  | o :: t, O => {| address := address o; alive := false |} :: t
  | o :: t, S j => o :: set_dead t j
  end.

(** FileWriterObserver_Release, c_file_writer_observer.cpp:247-249: the writer holds weak references only, so the last handle of the
    program is the last reference (observers with one handle) *)
Definition release_observer (w : world) (i : nat) : world := {| made := set_dead (made w) i; table := table w |}.

(** what a callback does and answers; an empty callback proceeds, c_file_writer_observer.cpp:44-46 and alike *)
Inductive answer : Type :=
| AProceed
| ARefuse (rv : N)          (* any value but VANILLAPDF_ERROR_SUCCESS: UserCancelledException, c_file_writer_observer.cpp:48-53 and alike *)
| ASubscribe (i : nat)
| AUnsubscribe (i : nat)
| ARelease (i : nat).

(** which observer was told what, with the size of the output at the time; the newest first *)
Definition log : Type := list (nat * event * N).

Inductive outcome : Type := Done | Cancelled (rv : N) | Failed (e : exn) | Undefined.

Section Notify.
(** order of the iteration over an unordered set; whether inserting one more makes it rehash; the callbacks *)
Variable order : list nat -> list nat.
Variable rehash : list nat -> bool.
Variable react : nat -> log -> event -> answer.

(** IFileWriterObservable::Initializing and alike, file_writer.h:35-93, with Invoke, 98-107: iteration over what is left in [rest].
    [erased] is skipped because it is not in the set any more.  [position] is the size of the output. *)
Fixpoint notify (position : N) (ev : event) (rest : list nat) (w : world) (h : log) : outcome * world * log :=
  match rest with
  | [] => (Done, w, h)
  | i :: t =>
      if negb (existsb (Nat.eqb i) (table w)) then notify position ev t w h
      else if negb (is_alive w i) then notify position ev t w h
      else
        let h' := (i, ev, position) :: h in
        match react i h ev with
        | AProceed => notify position ev t w h'
        | ARefuse rv => (Cancelled rv, w, h')
        | ASubscribe j =>
            (* 26.2.7 of the C++ standard: rehashing invalidates iterators; where else the new one is put is not said, here it is not
               on the way of this loop *)
            if negb (is_alive w j) then (Undefined, w, h')
            else match key_of w j with
                 | Some _ => notify position ev t w h'
                 | None => if rehash (table w) then (Undefined, w, h') else notify position ev t (subscribe w j) h'
                 end
        | AUnsubscribe j =>
            if negb (is_alive w j) then (Undefined, w, h')
            else match key_of w j with
                 | Some k => if Nat.eqb k i then (Undefined, w, h')   (* the iterator of the loop points at what is erased *)
                             else notify position ev t (unsubscribe w j) h'
                 | None => notify position ev t w h'
                 end
        | ARelease j => if negb (is_alive w j) then (Undefined, w, h') else notify position ev t (release_observer w j) h'
        end
  end.

(** a save in progress: what was put, and how much of it was flushed *)
Record output : Type := { out_bytes : bytes; out_flushed : N }.

(** the writer does its steps one after another; an exception ends the save *)
Fixpoint run_steps (steps : list step) (out : output) (w : world) (h : log) : outcome * output * world * log :=
  match steps with
  | [] => (Done, out, w, h)
  | Put b :: t => run_steps t {| out_bytes := out_bytes out ++ b; out_flushed := out_flushed out |} w h
  | FlushOut :: t => run_steps t {| out_bytes := out_bytes out; out_flushed := N.of_nat (List.length (out_bytes out)) |} w h
  | Fail (Throw e) :: _ => (Failed e, out, w, h)
  | Fail _ :: _ => (Undefined, out, w, h)
  | Tell ev :: t =>
      match notify (N.of_nat (List.length (out_bytes out))) ev (order (table w)) w h with
      | (Done, w', h') => run_steps t out w' h'
      | (r, w', h') => (r, out, w', h')
      end
  end.

(** FileWriter_Write, c_file_writer.cpp:22-35, to a new file *)
Definition save (v : version) (l : list (xentry * obj)) (trailer : list (bytes * obj)) (w : world) : outcome * output * world * log :=
  run_steps (save_steps v l trailer) {| out_bytes := []; out_flushed := 0 |} w [].
End Notify.

(** what a program does with observers before it saves *)
Inductive op : Type :=
| OMake (a : N)             (* FileWriterObserver_CreateCustom, c_file_writer_observer.cpp:210-237; the allocator gives the address *)
| ORelease (i : nat)
| OSubscribe (i : nat)      (* FileWriter_Subscribe, c_file_writer.cpp:51-61 *)
| OUnsubscribe (i : nat).

(** one operation; [None] is a program that is not possible: an observer that was released is used, or the allocator gives an address
    that is taken *)
Definition perform (w : world) (o : op) : option world :=
  match o with
  | OMake a =>
      if existsb (fun ob => alive ob && (address ob =? a)) (made w) then None
      else Some {| made := made w ++ [{| address := a; alive := true |}]; table := table w |}
  | ORelease i => if is_alive w i then Some (release_observer w i) else None
  | OSubscribe i => if is_alive w i then Some (subscribe w i) else None
  | OUnsubscribe i => if is_alive w i then Some (unsubscribe w i) else None
  end.

Fixpoint perform_all (w : world) (l : list op) : option world :=
  match l with
  | [] => Some w
  | o :: t => match perform w o with Some w' => perform_all w' t | None => None end
  end.

Definition start : world := {| made := []; table := [] |}.

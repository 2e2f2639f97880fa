(** Lifetime of reference counted objects: utils/unknown_interface.{h,cpp}, utils/deferred.h.

    Part one: one thread, any number of objects, handles (Deferred, or a raw pointer of the C interface that owns one reference)
    and weak references.  Part two: one object, any number of threads.

    Simplifications: an object is an identity that is never used again (the allocator may use an address again, which only makes
    comparing dead weak references ambiguous); the destructor of an object touches no other handle, and no weak reference is asked
    while the destructor runs. *)
From Coq Require Import List NArith Bool PeanoNat.
From Verif.Model Require Import Base.
Import ListNotations.
Local Open Scope N_scope.

(** m_ref_counter is an atomic<uint32_t>, unknown_interface.h:152; [weak] is the flag shared with the weak references,
    m_weak_ref of IWeakReferenceable, unknown_interface.h:216 *)
Record cell : Type := { count : N; freed : bool; weak : option nat }.

(** A weak reference: the pointer and the shared flag, unknown_interface.h:93-110; Reset (line 52) drops only the flag. *)
Definition weak_ref : Type := option (nat * option nat).

Record store : Type := {
  cells : list cell;              (* every object that was ever made *)
  flags : list bool;              (* WeakReferenceCounter::m_active, unknown_interface.h:31 *)
  handles : list (option nat);    (* m_ptr of every handle, deferred.h:284 *)
  weaks : list weak_ref;
  destroyed : list nat            (* objects whose destructor ran, last first *)
}.

Fixpoint set_nth {A} (l : list A) (i : nat) (x : A) : list A :=
  match l, i with
  | [], _ => []
  | _ :: t, O => x :: t
  | a :: t, S j => a :: set_nth t j x
  end.

Definition handle (s : store) (i : nat) : option nat := match nth_error (handles s) i with Some (Some o) => Some o | _ => None end.
Definition set_handle (s : store) (i : nat) (p : option nat) : store :=
  {| cells := cells s; flags := flags s; handles := set_nth (handles s) i p; weaks := weaks s; destroyed := destroyed s |}.
Definition set_cell (s : store) (o : nat) (c : cell) : store :=
  {| cells := set_nth (cells s) o c; flags := flags s; handles := handles s; weaks := weaks s; destroyed := destroyed s |}.

(** pdf_new T(): the count starts at zero, unknown_interface.cpp:22-26 *)
Definition new_object (s : store) (w : option nat) : nat * store :=
  (List.length (cells s),
   {| cells := cells s ++ [{| count := 0; freed := false; weak := w |}]; flags := flags s; handles := handles s; weaks := weaks s; destroyed := destroyed s |}).

(** IUnknown::AddRef, unknown_interface.cpp:36-38; touching an object that was deleted is undefined *)
Definition add_ref (s : store) (o : nat) : res store :=
  match nth_error (cells s) o with
  | Some c => if freed c then Undef else Ok (set_cell s o {| count := (count c + 1) mod 2 ^ 32; freed := false; weak := weak c |})
  | None => Undef
  end.

(** IUnknown::Release, unknown_interface.cpp:40-44, with the destructor of IWeakReferenceable, unknown_interface.h:187-191 *)
Definition release (s : store) (o : nat) : res store :=
  match nth_error (cells s) o with
  | Some c =>
      if freed c then Undef
      else
        let n := (count c + (2 ^ 32 - 1)) mod 2 ^ 32 in
        if n =? 0 then
          let s' := set_cell s o {| count := n; freed := true; weak := weak c |} in
          Ok {| cells := cells s'; flags := match weak c with Some f => set_nth (flags s') f false | None => flags s' end;
                handles := handles s'; weaks := weaks s'; destroyed := o :: destroyed s' |}
        else Ok (set_cell s o {| count := n; freed := false; weak := weak c |})
  | None => Undef
  end.

(** GetInternal, deferred.h:298-312 for types with a default constructor ([lazy]: the object is made on first use) and
    deferred.h:283-295 for the others *)
Definition get_internal (lazy : bool) (s : store) (i : nat) : res (option nat * store) :=
  match handle s i with
  | Some o => Ok (Some o, s)
  | None =>
      if lazy then let '(o, s1) := new_object s None in do s2 <- add_ref s1 o;; Ok (Some o, set_handle s2 i (Some o))
      else Ok (None, s)
  end.

(** DeferredWrapperBase(T*, true), a swap with the handle and the destructor of the temporary: operator=, deferred.h:141-149,
    reset(T* ), deferred.h:241-243, and ~DeferredWrapperBase, deferred.h:108-112 *)
Definition assign_pointer (s : store) (i : nat) (p : option nat) : res store :=
  do s1 <- match p with Some o => add_ref s o | None => Ok s end;;
  let old := handle s1 i in
  let s2 := set_handle s1 i p in
  match old with Some o => release s2 o | None => Ok s2 end.

Inductive action : Type :=
| ANew (i : nat)              (* handle i = make_deferred<T>(...) *)
| ACopy (i j : nat)           (* handle i = handle j; assigning from an rvalue copies as well, deferred.h:146-149 *)
| AMoveInto (i j : nat)       (* a new handle i is built from std::move(handle j), deferred.h:87-89 *)
| AReset (i : nat)            (* reset(), or the end of the handle's life, or IUnknown_Release *)
| ASwap (i j : nat)
| AWeak (w i : nat)           (* weak w = handle i *)
| AWeakReset (w : nat)
| ALock (i w : nat)           (* handle i = weak w.GetReference() *)
| AClone (i j : nat)          (* handle i = make_deferred<T>(copy of the object of handle j) *)
| AOverwrite (i j : nat).     (* the object of handle i is assigned the object of handle j *)

(** WeakReference::IsActive, unknown_interface.h:66-68 *)
Definition is_active (s : store) (w : nat) : bool :=
  match nth_error (weaks s) w with Some (Some (_, Some f)) => nth f (flags s) false | _ => false end.

(** IWeakReferenceable::GetWeakReference, unknown_interface.h:201-213 *)
Definition get_weak (s : store) (o : nat) : res (nat * store) :=
  match nth_error (cells s) o with
  | Some c =>
      if freed c then Undef
      else match weak c with
           | Some f => Ok (f, s)
           | None =>
               let f := List.length (flags s) in
               Ok (f, {| cells := set_nth (cells s) o {| count := count c; freed := false; weak := Some f |}; flags := flags s ++ [true];
                         handles := handles s; weaks := weaks s; destroyed := destroyed s |})
           end
  | None => Undef
  end.
Definition set_weak (s : store) (w : nat) (r : weak_ref) : store :=
  {| cells := cells s; flags := flags s; handles := handles s; weaks := set_nth (weaks s) w r; destroyed := destroyed s |}.

Definition perform (lazy : bool) (s : store) (a : action) : res store :=
  match a with
  | ANew i => let '(o, s1) := new_object s None in assign_pointer s1 i (Some o)
  | ACopy i j => do '(p, s1) <- get_internal lazy s j;; assign_pointer s1 i p
  | AMoveInto i j =>
      (* the handle is new: it holds nothing *)
      match handle s i with
      | Some _ => Throw ENotModelled
      | None => if Nat.eqb i j then Throw ENotModelled else let p := handle s j in Ok (set_handle (set_handle s i p) j None)
      end
  | AReset i => match handle s i with Some o => release (set_handle s i None) o | None => Ok s end
  | ASwap i j => let p := handle s i in let q := handle s j in Ok (set_handle (set_handle s i q) j p)
  | AWeak w i =>
      do '(p, s1) <- get_internal lazy s i;;
      match p with
      | None => Undef
      | Some o => do '(f, s2) <- get_weak s1 o;; Ok (set_weak s2 w (Some (o, Some f)))
      end
  | AWeakReset w =>
      match nth_error (weaks s) w with Some (Some (o, _)) => Ok (set_weak s w (Some (o, None))) | _ => Ok s end
  | ALock i w =>
      (* GetReference, unknown_interface.h:70-82; an exception leaves everything as it was *)
      if is_active s w then
        match nth_error (weaks s) w with Some (Some (o, _)) => assign_pointer s i (Some o) | _ => Ok s end
      else Ok s
  | AClone i j =>
      (* the copy constructor of IWeakReferenceable shares the flag, unknown_interface.h:181 *)
      do '(p, s1) <- get_internal lazy s j;;
      match p with
      | None => Undef
      | Some o =>
          match nth_error (cells s1) o with
          | Some c => if freed c then Undef else let '(o', s2) := new_object s1 (weak c) in assign_pointer s2 i (Some o')
          | None => Undef
          end
      end
  | AOverwrite i j =>
      (* the assignment of IWeakReferenceable takes over the flag of the other object, unknown_interface.h:182 *)
      match handle s i, handle s j with
      | Some o, Some o' =>
          match nth_error (cells s) o, nth_error (cells s) o' with
          | Some c, Some c' => if freed c || freed c' then Undef else Ok (set_cell s o {| count := count c; freed := false; weak := weak c' |})
          | _, _ => Undef
          end
      | _, _ => Undef
      end
  end.

Fixpoint perform_all (lazy : bool) (s : store) (l : list action) : res store :=
  match l with
  | [] => Ok s
  | a :: r => do s' <- perform lazy s a;; perform_all lazy s' r
  end.

(** [n] empty handles and [m] empty weak references *)
Definition empty_store (n m : nat) : store :=
  {| cells := []; flags := []; handles := repeat None n; weaks := repeat None m; destroyed := [] |}.

(** ** Several threads and one object *)

(** Where a thread is: between calls, in Release after the count reached zero (unknown_interface.cpp:41-42) before or after the
    weak references were told (unknown_interface.h:188-190), in GetReference after IsActive said yes (unknown_interface.h:71-81). *)
Inductive place : Type := PIdle | PDestroy | PFree | PLock.
Record thread : Type := { owned : nat; place_of : place }.
Record shared : Type := { total : N; active : bool; gone : bool; deletions : nat; threads : list thread }.

Inductive step : Type :=
| SCopy          (* copy a handle *)
| SDrop          (* release a handle *)
| SGive (u : nat) (* hand a handle over to thread u *)
| SCheck         (* first half of GetReference *)
| SGo.           (* the next part of the call the thread is in *)

Definition with_thread (s : shared) (t : nat) (x : thread) : shared :=
  {| total := total s; active := active s; gone := gone s; deletions := deletions s; threads := set_nth (threads s) t x |}.
Definition with_total (s : shared) (n : N) : shared :=
  {| total := n; active := active s; gone := gone s; deletions := deletions s; threads := threads s |}.

(** Every step is one atomic access: the counter and the flag are std::atomic.  A step that the thread cannot make is [Throw]. *)
Definition take_step (s : shared) (t : nat) (a : step) : res shared :=
  match nth_error (threads s) t with
  | None => Throw ENotModelled
  | Some x =>
      match a, place_of x with
      | SCopy, PIdle =>
          match owned x with
          | O => Throw ENotModelled
          | S _ => if gone s then Undef
                   else Ok (with_thread (with_total s ((total s + 1) mod 2 ^ 32)) t {| owned := S (owned x); place_of := PIdle |})
          end
      | SDrop, PIdle =>
          match owned x with
          | O => Throw ENotModelled
          | S k => if gone s then Undef
                   else let n := (total s + (2 ^ 32 - 1)) mod 2 ^ 32 in
                        Ok (with_thread (with_total s n) t {| owned := k; place_of := if n =? 0 then PDestroy else PIdle |})
          end
      | SGive u, PIdle =>
          match owned x with
          | O => Throw ENotModelled
          | S k =>
              let s1 := with_thread s t {| owned := k; place_of := PIdle |} in
              match nth_error (threads s1) u with
              | Some y => Ok (with_thread s1 u {| owned := S (owned y); place_of := place_of y |})
              | None => Throw ENotModelled
              end
          end
      | SCheck, PIdle => if active s then Ok (with_thread s t {| owned := owned x; place_of := PLock |}) else Ok s
      | SGo, PLock =>
          if gone s then Undef
          else Ok (with_thread (with_total s ((total s + 1) mod 2 ^ 32)) t {| owned := S (owned x); place_of := PIdle |})
      | SGo, PDestroy =>
          if gone s then Undef
          else Ok (with_thread {| total := total s; active := false; gone := gone s; deletions := deletions s; threads := threads s |} t
                     {| owned := owned x; place_of := PFree |})
      | SGo, PFree =>
          if gone s then Undef
          else Ok (with_thread {| total := total s; active := active s; gone := true; deletions := S (deletions s); threads := threads s |} t
                     {| owned := owned x; place_of := PIdle |})
      | _, _ => Throw ENotModelled
      end
  end.
Fixpoint run_schedule (s : shared) (l : list (nat * step)) : res shared :=
  match l with
  | [] => Ok s
  | (t, a) :: r => do s' <- take_step s t a;; run_schedule s' r
  end.

(** one handle, owned by thread 0; every one of [n] more threads knows a weak reference *)
Definition first_state (n : nat) : shared :=
  {| total := 1; active := true; gone := false; deletions := 0;
     threads := {| owned := 1; place_of := PIdle |} :: repeat {| owned := 0; place_of := PIdle |} n |}.

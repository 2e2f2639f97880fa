(** Lifetime of objects: what a user of handles and weak references may rely on. *)
From Coq Require Import List NArith Bool.
From Verif.Model Require Import Base RefCount.
Import ListNotations.

(** Some handle refers to the object. *)
Definition held (s : store) (o : nat) : Prop := exists i, nth_error (handles s) i = Some (Some o).
Definition made (s : store) (o : nat) : Prop := o < List.length (cells s).
Definition was_destroyed (s : store) (o : nat) : Prop := In o (destroyed s).
(** weak reference [w] was made for object [o] and not reset *)
Definition refers_weakly (s : store) (w o : nat) : Prop := exists f, nth_error (weaks s) w = Some (Some (o, Some f)).

(** The promise: an object is destroyed if and only if no handle is left, once, and weak references know. *)
Definition lifetimes_right (s : store) : Prop :=
  (forall o, held s o -> made s o) /\
  (forall o, made s o -> (was_destroyed s o <-> ~ held s o)) /\
  NoDup (destroyed s) /\
  (forall w o, refers_weakly s w o -> made s o /\ (is_active s w = true <-> held s o)).

(** Actions with handles and weak references that exist, on objects that are not copied as values; the weak reference of an empty
    handle is only taken where the object is made on demand; a handle is moved into a new one. *)
Definition sensible (lazy : bool) (s : store) (a : action) : Prop :=
  let h i := i < List.length (handles s) in
  let w i := i < List.length (weaks s) in
  match a with
  | ANew i | AReset i => h i
  | ACopy i j | ASwap i j => h i /\ h j
  | AMoveInto i j => h i /\ h j /\ i <> j /\ nth_error (handles s) i = Some None
  | AWeak k i => w k /\ h i /\ (lazy = true \/ exists o, nth_error (handles s) i = Some (Some o))
  | AWeakReset k => w k
  | ALock i k => h i /\ w k
  | AClone _ _ | AOverwrite _ _ => False
  end.

(** All histories of such actions. *)
Inductive history (lazy : bool) : store -> list action -> Prop :=
| hist_nil : forall s, history lazy s []
| hist_cons : forall s a l, sensible lazy s a -> (forall s', perform lazy s a = Ok s' -> history lazy s' l) -> history lazy s (a :: l).

(** Threads: the handles that all threads own together. *)
Fixpoint all_owned (l : list thread) : nat := match l with [] => 0 | t :: r => owned t + all_owned r end.

(** Locking a weak reference only by threads that own a handle: such a thread keeps its handle during the call. *)
Definition careful (s : shared) (t : nat) (a : step) : Prop :=
  match a with
  | SCheck => exists x, nth_error (threads s) t = Some x /\ owned x > 0
  | _ => True
  end.
Inductive schedule_ok : shared -> list (nat * step) -> Prop :=
| sched_nil : forall s, schedule_ok s []
| sched_cons : forall s t a l, careful s t a -> (forall s', take_step s t a = Ok s' -> schedule_ok s' l) -> schedule_ok s ((t, a) :: l).

(** What threads that read the objects of one file may rely on. *)
From Coq Require Import List NArith ZArith Bool PeanoNat Arith.
From Verif.Model Require Import Base Threads.
Import ListNotations.

Section Spec.
Context {V : Type}.
Variable entry : N -> option where_is.
Variable parse : N -> Z -> V * Z.
Variable unpack : N -> Z -> list (N * V).

(** What the file says an object is: what stands at its own place, or what its object stream has for its number. *)
Definition in_file (n : N) : option V :=
  match entry n with
  | None => None
  | Some (Own d _) => Some (fst (parse n d))
  | Some (Inside s) =>
      match entry s with
      | Some (Own d _) => option_map snd (find (fun p => N.eqb (fst p) n) (unpack s d))
      | _ => None
      end
  end.

(** Files whose loading is a finite affair: the Length of a stream is direct or an object of the file itself, and following Lengths ends;
    object streams are in the file itself; an object stream has the objects whose entries say so, once each. *)
Record sound_file (rank : N -> nat) : Prop := {
  sound_length : forall n d k, entry n = Some (Own d (Some k)) -> (exists d' l', entry k = Some (Own d' l')) /\ rank k < rank n;
  sound_stream : forall n s, entry n = Some (Inside s) ->
    exists d l, entry s = Some (Own d l) /\ NoDup (map fst (unpack s d)) /\ forall m v, In (m, v) (unpack s d) -> entry m = Some (Inside s)
}.
(** an object that is the Length of a stream of the file *)
Definition is_length (k : N) : Prop := exists n d, entry n = Some (Own d (Some k)).
(** an object that is an object stream *)
Definition is_object_stream (s : N) : Prop := exists n, entry n = Some (Inside s).

(** a thread got everything it asked for *)
Definition finished (th : @thread V) : Prop := frames th = [] /\ asking th = None /\ todo th = [].
Definition all_finished (st : @state V) : Prop := forall t, finished (threads st t).
(** no thread can go on *)
Definition nobody_moves (st : @state V) : Prop := forall t st', ~ step entry parse unpack t st st'.

(** the next step of a thread looks at IsInitialized of an entry while the thread does not hold the mutex of the entry *)
Definition about_to_look (st : @state V) (t : nat) (n : N) : Prop :=
  held (threads st t) (LEntry n) = false /\
  ((frames (threads st t) = [] /\ asking (threads st t) = None /\ exists l, todo (threads st t) = n :: l)
   \/ (exists m p r, frames (threads st t) = FOwn m (OLength p) :: r /\ len_of entry m = Some n)
   \/ (exists r, frames (threads st t) = FIn n CStream :: r)).
(** the next step of a thread sets IsInitialized of an entry *)
Definition about_to_set (st : @state V) (t : nat) (n : N) : Prop :=
  (exists p r, frames (threads st t) = FOwn n (OFlag p) :: r) \/ (exists k l r, frames (threads st t) = FIn k (CFlag n l) :: r).
(** two threads use the same plain variable at the same time and one of them writes it: undefined behaviour *)
Definition data_race (st : @state V) : Prop := exists t u n, t <> u /\ about_to_look st t n /\ about_to_set st u n.

End Spec.

Section Stuck.
Context {V : Type}.
Variable entry : N -> option where_is.
Variable parse : N -> Z -> V * Z.
Variable unpack : N -> Z -> list (N * V).
(** a thread that has not finished and never does another step, whatever the threads do *)
Definition stuck (st : @state V) (t : nat) : Prop :=
  ~ finished (threads st t) /\ forall k st', runs entry parse unpack k st st' -> threads st' t = threads st t.
(** the program of one thread: everybody else asks for nothing *)
Definition only (t : nat) (l : list N) : nat -> list N := fun u => if Nat.eqb u t then l else [].
End Stuck.

(** Compressed data, and what zlib promises about its calls (zlib.h). *)
From Coq Require Import List NArith Arith Bool.
From Verif.Model Require Import Base Zlib.
Import ListNotations.

Definition begins {A} (a b : list A) : Prop := exists c, b = a ++ c.

(** What bytes mean as the beginning of compressed data: the data one can have from them, and whether more is to come, the data is
    complete, or it is damaged.  What follows complete data is not looked at. *)
Inductive progress : Type := More | Complete | Damaged.
Definition decoder : Type := list N -> list N * progress.
Definition is_format (decode : decoder) : Prop :=
  decode [] = ([], More) /\
  forall p q, match snd (decode p) with
              | More => begins (fst (decode p)) (fst (decode (p ++ q)))
              | _ => decode (p ++ q) = decode p
              end.

(** inflate: [stands s c o] when [c] was taken and [o] was given so far.  It takes input in order, gives data in order, no more than
    there is room for, reports the end and damage truthfully, and otherwise goes on until the room is full or the input is used up. *)
Definition inflate_keeps (decode : decoder) (zstate : Type) (inflate : zstate -> bytes -> nat -> zstatus * bytes * bytes * zstate)
    (stands : zstate -> list N -> list N -> Prop) (init : zstate) : Prop :=
  stands init [] [] /\
  forall s c o input room, stands s c o -> (0 < room)%nat ->
    let '(rv, out, rest, s') := inflate s input room in
    exists used, input = used ++ rest /\ (length out <= room)%nat /\ stands s' (c ++ used) (o ++ out) /\
      begins (o ++ out) (fst (decode (c ++ used))) /\
      match rv with
      | ZStreamEnd => snd (decode (c ++ used)) = Complete /\ o ++ out = fst (decode (c ++ used))
      | ZDataError => snd (decode (c ++ used)) = Damaged /\ o ++ out = fst (decode (c ++ used))
      | ZOk | ZBufError => length out = room \/ (rest = [] /\ snd (decode (c ++ used)) = More /\ o ++ out = fst (decode (c ++ used)))
      | _ => False
      end.

(** deflate: [stands s f c o], and [f] when it was asked to finish; there must be no more input then.  It takes input in order and gives
    no more than there is room for; asked to finish it goes on until all is given, and then the output is complete data for the input.
    The output has a bound. *)
Definition deflate_keeps (decode : decoder) (zstate : Type) (deflate : zstate -> bytes -> nat -> zflush -> zstatus * bytes * bytes * zstate)
    (stands : zstate -> bool -> list N -> list N -> Prop) (init : zstate) (bound : nat -> nat) : Prop :=
  stands init false [] [] /\ (forall a b, a <= b -> bound a <= bound b)%nat /\
  forall s f c o input room flush, stands s f c o -> (0 < room)%nat -> (f = true -> input = [] /\ flush = ZFinish) ->
    let '(rv, out, rest, s') := deflate s input room flush in
    exists used, input = used ++ rest /\ (length out <= room)%nat /\
      stands s' (match flush with ZFinish => true | ZNoFlush => f end) (c ++ used) (o ++ out) /\
      (length (o ++ out) <= bound (length (c ++ used)))%nat /\
      match rv with
      | ZStreamEnd => flush = ZFinish /\ rest = [] /\ decode (o ++ out) = (c ++ used, Complete)
      | ZOk | ZBufError => length out = room \/ (rest = [] /\ flush = ZNoFlush)
      | _ => False
      end.

(** the call gives [r] as long as the computation is given enough time *)
Definition results_in (f : nat -> unpacked) (r : unpacked) : Prop := exists n, forall fuel, (n <= fuel)%nat -> f fuel = r.

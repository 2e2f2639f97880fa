(** Reference arithmetic. *)
From Coq Require Import List NArith ZArith Bool.
Import ListNotations.
Local Open Scope Z_scope.

(** the values of a two's complement integer type *)
Definition representable (signed : bool) (bits : N) (v : Z) : Prop :=
  if signed then - 2 ^ (Z.of_N bits - 1) <= v < 2 ^ (Z.of_N bits - 1) else 0 <= v < 2 ^ Z.of_N bits.

(** big-endian value of a byte string *)
Fixpoint big_endian (s : list N) : N :=
  match s with [] => 0%N | b :: t => (b * 256 ^ N.of_nat (length t) + big_endian t)%N end.

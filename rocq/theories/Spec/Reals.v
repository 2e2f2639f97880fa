(** What real numbers are worth. *)
From Coq Require Import List NArith ZArith QArith Qabs Bool.
From Verif.Model Require Import Reals.
Import ListNotations.

Definition with_sign (neg : bool) (x : Q) : Q := if neg then (- x)%Q else x.
(** the number that is written with the digits of [m], the last [p] of them behind the point *)
Definition decimal (neg : bool) (m p : N) : Q := with_sign neg (inject_Z (Z.of_N m) / (10 # 1) ^ Z.of_N p)%Q.
(** the number a double is *)
Definition worth (v : double) : Q := with_sign (r_neg v) (inject_Z (Z.of_N (r_q v)) * (2 # 1) ^ r_e v)%Q.
(** the doubles of 64 bits: 53 bits of digits, exponents from -1074 *)
Definition binary64 (v : double) : Prop := (r_q v <= 2 ^ 53)%N /\ (-1074 <= r_e v <= 971)%Z.
(** the double uses all its 53 bits, and is not among the smallest *)
Definition normal (v : double) : Prop := (2 ^ 52 <= r_q v < 2 ^ 53)%N /\ (-1074 < r_e v <= 971)%Z.
(** half a unit of the last of [p] digits *)
Definition half_unit (p : N) : Q := ((1 # 2) / (10 # 1) ^ Z.of_N p)%Q.

(** Textual numbers: std::to_string, fmt "{:02X}" / "{:03o}" / "{:010}", std::stoi / std::stoll. *)
From Coq Require Import List NArith ZArith Bool.
From Verif.Model Require Import Base Char.
Import ListNotations.
Local Open Scope N_scope.

(** Digit characters 0-9A-F. *)
Definition digit_char (d : N) : N := if d <? 10 then 48 + d else 55 + d.

(** Positional notation of [n] in [base], most significant digit first, at least one digit.
    [fuel] bounds the number of digits; [N.size_nat n] (binary length) always suffices. *)
Fixpoint digits_aux (base : N) (fuel : nat) (n : N) (acc : bytes) : bytes :=
  match fuel with
  | O => acc
  | S f => let acc' := digit_char (n mod base) :: acc in
           if n / base =? 0 then acc' else digits_aux base f (n / base) acc'
  end.
Definition digits (base n : N) : bytes := digits_aux base (S (N.size_nat n)) n [].

(** std::to_string on unsigned values *)
Definition to_string_N (n : N) : bytes := digits 10 n.

(** std::to_string on signed values *)
Definition to_string_Z (z : Z) : bytes :=
  if (z <? 0)%Z then 45 :: digits 10 (Z.to_N (- z)) else digits 10 (Z.to_N z).

(** fmt zero padding "{:0w}" *)
Definition pad_zero (w : nat) (s : bytes) : bytes := repeat 48 (w - List.length s) ++ s.

(** fmt "{:02X}" of a char.  Assumption (fmt version not pinned in /repo): a char is formatted through unsigned char. *)
Definition fmt_02X (b : N) : bytes := pad_zero 2 (digits 16 b).

(** fmt "{:03o}" of an unsigned char *)
Definition fmt_03o (b : N) : bytes := pad_zero 3 (digits 8 b).

(** Value of a digit character in some base up to 36, as strtol sees it. *)
Definition digit_val (c : N) : option N :=
  if is_numeric c then Some (c - 48)
  else if (97 <=? c) && (c <=? 122) then Some (c - 87)
  else if (65 <=? c) && (c <=? 90) then Some (c - 55)
  else None.

Definition digit_in (base c : N) : option N :=
  match digit_val c with
  | Some d => if d <? base then Some d else None
  | None => None
  end.

(** Leading digits of [s] in [base], accumulated into [acc]; [n] counts them. *)
Fixpoint take_digits (base : N) (s : bytes) (acc : N) (n : nat) : N * nat :=
  match s with
  | [] => (acc, n)
  | c :: t => match digit_in base c with
              | Some d => take_digits base t (acc * base + d) (S n)
              | None => (acc, n)
              end
  end.

(** strtol prefix "0x": skipped for base 16 when a hexadecimal digit follows *)
Definition skip_0x (base : N) (s : bytes) : bytes :=
  if base =? 16 then
    match s with
    | 48 :: x :: c :: t =>
        if ((x =? 120) || (x =? 88)) && (match digit_in 16 c with Some _ => true | None => false end) then c :: t else s
    | _ => s
    end
  else s.

(** C strtol: leading white space, optional sign, digits; [None] when there is no digit. *)
Definition strtol (base : N) (s : bytes) : option Z :=
  let '(_, s1) := span is_cspace s in
  let '(neg, s2) := match s1 with
                    | 45 :: t => (true, t)
                    | 43 :: t => (false, t)
                    | _ => (false, s1)
                    end in
  let '(v, n) := take_digits base (skip_0x base s2) 0 O in
  match n with
  | O => None
  | S _ => Some (if neg then (- Z.of_N v)%Z else Z.of_N v)
  end.

Definition int32_min : Z := (- 2 ^ 31)%Z.
Definition int32_max : Z := (2 ^ 31 - 1)%Z.
Definition int64_min : Z := (- 2 ^ 63)%Z.
Definition int64_max : Z := (2 ^ 63 - 1)%Z.

(** std::stoi(str, 0, base) with 32-bit int *)
Definition stoi (base : N) (s : bytes) : res Z :=
  match strtol base s with
  | None => Throw EStdInvalid
  | Some v => if (int32_min <=? v)%Z && (v <=? int32_max)%Z then Ok v else Throw EStdRange
  end.

(** std::stoll(str) *)
Definition stoll (s : bytes) : res Z :=
  match strtol 10 s with
  | None => Throw EStdInvalid
  | Some v => if (int64_min <=? v)%Z && (v <=? int64_max)%Z then Ok v else Throw EStdRange
  end.

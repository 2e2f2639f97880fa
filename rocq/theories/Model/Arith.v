(** Checked integer arithmetic: utils/conversion_utils.h, utils/math_utils.h; bit operations of syntax/objects/numeric_object.cpp. *)
From Coq Require Import List NArith ZArith Bool.
From Verif.Model Require Import Base.
Import ListNotations.
Local Open Scope Z_scope.

(** A C++ integer type: signedness and width in bits (two's complement). *)
Record ity : Set := { sgn : bool; bits : N }.
Definition tmin (t : ity) : Z := if sgn t then - 2 ^ (Z.of_N (bits t) - 1) else 0.
Definition tmax (t : ity) : Z := if sgn t then 2 ^ (Z.of_N (bits t) - 1) - 1 else 2 ^ Z.of_N (bits t) - 1.
Definition int32_t := {| sgn := true; bits := 32 |}.
Definition uint32_t := {| sgn := false; bits := 32 |}.
Definition int64_t := {| sgn := true; bits := 64 |}.
Definition uint64_t := {| sgn := false; bits := 64 |}.
Definition uint16_t := {| sgn := false; bits := 16 |}.
Definition uint8_t := {| sgn := false; bits := 8 |}.
Definition ity_eqb (a b : ity) : bool := Bool.eqb (sgn a) (sgn b) && (bits a =? bits b)%N.

(** conversion to an integer type: modulo 2^bits (static_cast; implementation-defined before C++20, modulo on every compiler) *)
Definition wrap (t : ity) (v : Z) : Z :=
  let m := v mod 2 ^ Z.of_N (bits t) in
  if sgn t && (2 ^ (Z.of_N (bits t) - 1) <=? m) then m - 2 ^ Z.of_N (bits t) else m.

(** ValueConvertUtils::IsInRange, conversion_utils.h:27-96 *)
Definition is_in_range_same (rt vt : ity) (v : Z) : bool :=          (* 40-55 *)
  if ity_eqb rt vt then true else (tmin rt <=? v) && (v <=? tmax rt).
Definition is_in_range (rt vt : ity) (v : Z) : bool :=
  if Bool.eqb (sgn rt) (sgn vt) then is_in_range_same rt vt v
  else if sgn vt then                                                  (* 57-75: signed value, unsigned range *)
    if v <? 0 then false
    else is_in_range_same rt {| sgn := false; bits := bits vt |} v
  else tmax rt >? v.                                                   (* 77-95: unsigned value, signed range *)

(** ValueConvertUtils::SafeConvert, conversion_utils.h:17-24 *)
Definition safe_convert (rt vt : ity) (v : Z) : res Z :=
  if is_in_range rt vt v then Ok (wrap rt v) else Throw EConversion.

(** usual arithmetic conversions (C++ [expr.arith.conv]) after integral promotion to at least 32 bits *)
Definition promote (t : ity) : ity := if (bits t <? 32)%N then int32_t else t.
Definition common (a b : ity) : ity :=
  let a := promote a in let b := promote b in
  if Bool.eqb (sgn a) (sgn b) then (if (bits a <? bits b)%N then b else a)
  else
    let u := if sgn a then b else a in
    let s := if sgn a then a else b in
    if (bits s <=? bits u)%N then u else s.

(** a value of type [t] computed exactly as [v]: wraps when unsigned, undefined on signed overflow *)
Definition arith (t : ity) (v : Z) : res Z :=
  if sgn t then if (tmin t <=? v) && (v <=? tmax t) then Ok v else Undef else Ok (wrap t v).

(** a < b between operands of types ta, tb *)
Definition cmp_lt (ta tb : ity) (a b : Z) : bool := wrap (common ta tb) a <? wrap (common ta tb) b.

(** SafeAddition<Result, ValueFirst, ValueSecond>, math_utils.h:12-35 *)
Definition safe_addition (rt t1 t2 : ity) (number addend : Z) : res Z :=
  let ct := common t1 t2 in
  do sum <- arith ct (wrap ct number + wrap ct addend);;
  let result := wrap rt sum in
  if cmp_lt t1 int32_t number 0 then
    if cmp_lt t2 int32_t addend 0 then
      if cmp_lt t1 rt number result then Throw EStdRange else Ok result
    else Ok result
  else if cmp_lt rt t1 result number then Throw EStdRange
  else Ok result.

(** SafeMultiply<ResultType, ValueType>, math_utils.h:37-70 (C++ division truncates toward zero).  Asserts are compiled out. *)
Definition safe_multiply (rt vt : ity) (number multiplier : Z) : res Z :=
  if (number =? 0) || (multiplier =? 0) then Ok 0
  else
    do n <- safe_convert rt vt number;;
    do m <- safe_convert rt vt multiplier;;
    if Z.quot (tmax rt) m <? n then Throw EStdRange
    else
      do p <- arith (promote rt) (n * m);;
      Ok (wrap rt p).

(** MostSignificantBit, math_utils.h:76-85, unsigned argument *)
Fixpoint msb_fuel (fuel : nat) (v : N) (result : N) : res N :=
  match fuel with
  | O => NoFuel
  | S f => if (0 <? v)%N then msb_fuel f (v / 2)%N (result + 1)%N else Ok result
  end.
Definition most_significant_bit (v : N) : res N := msb_fuel (S (N.size_nat v)) v 0%N.

(** NumericObjectBackend, numeric_object.h:48-63; a real is kept only as its kind here *)
Inductive number : Set :=
| NSigned (z : Z)
| NUnsigned (z : Z)
| NReal.

(** ToggleBit, numeric_object.cpp:81-114; shifting by a negative amount or by 64 or more is undefined *)
Definition toggle_bit (n : number) (pos : Z) (value : bool) : res number :=
  match n with
  | NReal => Throw EGeneral
  | _ =>
      if (pos <? 0) || (64 <=? pos) then Undef
      else
        let bit t := wrap t (Z.shiftl 1 pos) in
        match n with
        | NSigned z => Ok (NSigned (wrap int64_t (if value then Z.lor z (bit int64_t) else Z.land z (Z.lnot (bit int64_t)))))
        | NUnsigned z => Ok (NUnsigned (wrap uint64_t (if value then Z.lor z (bit uint64_t) else Z.land z (Z.lnot (bit uint64_t)))))
        | NReal => Throw EGeneral
        end
  end.

(** IsBitSet, numeric_object.cpp:124-141 *)
Definition is_bit_set (n : number) (pos : Z) : res bool :=
  match n with
  | NReal => Throw EGeneral
  | NSigned z | NUnsigned z =>
      if (pos <? 0) || (64 <=? pos) then Undef
      else Ok (negb (Z.land (Z.shiftr z pos) 1 =? 0))
  end.

(** GetIntegerValue 143-158 and GetUnsignedIntegerValue 160-176 of numeric_object.cpp, integers only *)
Definition get_integer (n : number) : res Z :=
  match n with
  | NSigned z => Ok z
  | NUnsigned z => safe_convert int64_t uint64_t z
  | NReal => Throw ENotModelled
  end.
Definition get_unsigned (n : number) : res Z :=
  match n with
  | NUnsigned z => Ok z
  | NSigned z => safe_convert uint64_t int64_t z
  | NReal => Throw ENotModelled
  end.

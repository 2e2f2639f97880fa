(** Real numbers as the library keeps them: a double and a number of digits (syntax/objects/numeric_object.cpp, parser_utils.cpp:35-48,
    real_object.cpp).  Model/Object.v keeps the decimal number of the text instead; this model says when that is the same.

    A finite double is a sign, [q] and [e], and stands for q * 2^e with q <= 2^53; not a number and infinities do not occur in what is read.
    Outside the code: std::stod rounds to the nearest double, ties to even, and reports numbers that are too large or too small (the C
    library's strtod sets ERANGE); fmt prints the decimal number with the asked number of digits that is nearest to the double, ties to
    even. *)
From Coq Require Import List NArith ZArith Bool.
From Verif.Model Require Import Base Numbers Object Parser.
Import ListNotations.
Local Open Scope N_scope.

(** a / b rounded to the nearest integer, ties to even *)
Definition round_div (a b : N) : N :=
  let q := a / b in
  let r := a mod b in
  if 2 * r <? b then q else if b <? 2 * r then q + 1 else if N.even q then q else q + 1.

Record double : Type := { r_neg : bool; r_q : N; r_e : Z }.

(** 2^k <= m / d *)
Definition at_least (m d : N) (k : Z) : bool :=
  if (0 <=? k)%Z then d * 2 ^ Z.to_N k <=? m else d <=? m * 2 ^ Z.to_N (- k).
(** the exponent of the leading bit of m / d *)
Definition leading (m d : N) : Z :=
  let k := (Z.of_N (N.log2 m) - Z.of_N (N.log2 d))%Z in
  if at_least m d k then k else (k - 1)%Z.
(** the double nearest to m / d *)
Definition nearest (m d : N) : N * Z :=
  let e := Z.max (leading m d - 52) (-1074) in
  (if (e <? 0)%Z then round_div (m * 2 ^ Z.to_N (- e)) d else round_div m (d * 2 ^ Z.to_N e), e).
(** m / d is a number of the form q * 2^e *)
Definition exact (m d : N) (e : Z) : bool :=
  if (e <? 0)%Z then (m * 2 ^ Z.to_N (- e)) mod d =? 0 else m mod (d * 2 ^ Z.to_N e) =? 0.
(** q * 2^e is 2^1024 or more *)
Definition overflows (q : N) (e : Z) : bool := if (0 <=? e)%Z then 2 ^ 1024 <=? q * 2 ^ Z.to_N e else false.

(** std::stod of a text that is the decimal number m / 10^p *)
Definition stod (neg : bool) (m p : N) : res double :=
  if m =? 0 then Ok {| r_neg := neg; r_q := 0; r_e := -1074 |}
  else
    let d := 10 ^ p in
    let '(q, e) := nearest m d in
    if overflows q e then Throw EStdRange
    else if ((leading m d <? -1022)%Z && negb (exact m d e))%bool then Throw EStdRange
    else Ok {| r_neg := neg; r_q := q; r_e := e |}.

(** the decimal number with [p] digits after the point that is nearest to the double, as an integer in units of 10^-p *)
Definition fixed (p : N) (v : double) : N :=
  if (r_e v <? 0)%Z then round_div (r_q v * 10 ^ p) (2 ^ Z.to_N (- r_e v)) else r_q v * 2 ^ Z.to_N (r_e v) * 10 ^ p.

(** NumericObjectBackend with Type::Real: m_real and m_precision, numeric_object.h:67-77 *)
Record real : Type := { value : double; precision : N }.

(** ParserUtils::CreateReal, parser_utils.cpp:35-48 *)
Definition read_real (s : bytes) : res real :=
  do o <- create_real s;;
  match o with
  | OReal neg m p => do v <- stod neg m p;; Ok {| value := v; precision := p |}
  | _ => Throw ENotModelled
  end.
(** NumericObjectBackend::SetRealValue, numeric_object.cpp:72-80: the number of digits stays *)
Definition set_real (v : double) (r : real) : real := {| value := v; precision := precision r |}.

(** fmt::to_string of a double: the shortest digits that read back, [digits] * 10^[exponent], as a plain number when its leading digit
    is at most 16 places before and 4 places behind the point, and otherwise with an exponent of at least two digits.  Only the second form
    is needed: [x] is the exponent of the leading digit. *)
Definition scientific (digits : bytes) (x : Z) : bytes :=
  match digits with
  | [] => []
  | c :: t => c :: (match t with [] => [] | _ => 46 :: t end) ++ [101; if (x <? 0)%Z then 45 else 43] ++
      (let n := to_string_N (Z.abs_N x) in match n with [_] => 48 :: n | _ => n end)
  end.
(** NumericObjectBackend::RealString, numeric_object.cpp:204-228.  [shortest] gives the text without a number of digits. *)
Definition real_string (shortest : double -> bytes) (r : real) : bytes :=
  if 0 <? precision r then real_to_pdf (r_neg (value r)) (fixed (precision r) (value r)) (precision r) else shortest (value r).

(** ValueConvertUtils::SafeConvert<big_int> of a double, conversion_utils.h:18-24 and 44-54: the maximum of the integers is compared as a
    double, which is 2^63; converting a double that does not fit is undefined *)
Definition truncate (v : double) : Z :=
  let a := if (r_e v <? 0)%Z then r_q v / 2 ^ Z.to_N (- r_e v) else r_q v * 2 ^ Z.to_N (r_e v) in
  if r_neg v then (- Z.of_N a)%Z else Z.of_N a.
(** the double is at most 2^63 in size *)
Definition at_most_2_63 (v : double) : bool :=
  if (r_e v <? 0)%Z then r_q v <=? 2 ^ 63 * 2 ^ Z.to_N (- r_e v) else r_q v * 2 ^ Z.to_N (r_e v) <=? 2 ^ 63.
Definition real_to_big_int (v : double) : res Z :=
  if at_most_2_63 v then
    let z := truncate v in
    if (z <? 2 ^ 63)%Z then Ok z else Undef
  else Throw EConversion.

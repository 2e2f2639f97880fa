(** syntax/filters: ASCII85, ASCIIHex, PNG predictor of the Flate filter *)
From Coq Require Import List NArith ZArith Bool.
From Verif.Model Require Import Base Char Numbers Arith.
Import ListNotations.
Local Open Scope N_scope.

(** ** ASCII85DecodeFilter::Decode, ascii_85_decode_filter.cpp:12-91 *)

(** arithmetic in [int].  [strict = true]: the C++ standard, signed overflow is undefined.  [strict = false]: a compiler that
    wraps.  All operands of the sums below are nonnegative, so an intermediate result overflows only if the total does, and
    wrapping each step equals wrapping the total; the check is made once, on the total (simplification). *)
Definition int_op (strict : bool) (v : Z) : res Z :=
  if (int32_min <=? v)%Z && (v <=? int32_max)%Z then Ok v else if strict then Undef else Ok (wrap int32_t v).

(** value >> shift & 0xFF on an int *)
Definition int_byte (v : Z) (shift : Z) : N := Z.to_N ((v / 2 ^ shift) mod 256).

(** lines 58-60: the five collected digits *)
Definition base85 (seq : list N) : Z := fold_left (fun v d => v * 85 + Z.of_N d)%Z seq 0%Z.

(** lines 73-88: the last partial group *)
Definition a85_final (strict : bool) (seq : list N) : res bytes :=
  match seq with
  | [a; b] => do v <- int_op strict (Z.of_N a * 85 * 85 * 85 * 85 + Z.of_N b * 85 * 85 * 85 + 85 * 85 * 85 + 85 * 85 + 85)%Z;;
              Ok [int_byte v 24]
  | [a; b; c] => do v <- int_op strict (Z.of_N a * 85 * 85 * 85 * 85 + Z.of_N b * 85 * 85 * 85 + Z.of_N c * 85 * 85 + 85 * 85 + 85)%Z;;
              Ok [int_byte v 24; int_byte v 16]
  | [a; b; c; d] => do v <- int_op strict (Z.of_N a * 85 * 85 * 85 * 85 + Z.of_N b * 85 * 85 * 85 + Z.of_N c * 85 * 85 + Z.of_N d * 85 + 85)%Z;;
              Ok [int_byte v 24; int_byte v 16; int_byte v 8]
  | _ => Ok []
  end.

(** lines 18-71.  [n] is the remaining length, [s] the rest of the stream, [seq] the digits of the open group (its length is
    the variable [current]). *)
Fixpoint a85_loop (strict : bool) (n : nat) (s : bytes) (seq : list N) : res bytes :=
  match n with
  | O => a85_final strict seq
  | S n' =>
      match s with
      | [] => Throw EGeneral
      | ch :: t =>
          if (ch =? 126) && (match t with c :: _ => c =? 62 | [] => false end) then a85_final strict seq
          else if is_white ch then a85_loop strict n' t seq
          else if (ch =? 122) && (match seq with [] => true | _ => false end) then
            do r <- a85_loop strict n' t seq;; Ok (0 :: 0 :: 0 :: 0 :: r)
          else if (ch <? 33) || (117 <? ch) then Throw EGeneral
          else
            let seq' := seq ++ [ch - 33] in
            if Nat.eqb (length seq) 4 then
              do v <- int_op strict (base85 seq');;
              do r <- a85_loop strict n' t [];;
              Ok (int_byte v 24 :: int_byte v 16 :: int_byte v 8 :: int_byte v 0 :: r)
            else a85_loop strict n' t seq'
      end
  end.
Definition ascii85_decode (strict : bool) (s : bytes) (length : nat) : res bytes := a85_loop strict length s [].

(** ** ASCIIHexDecodeFilter::Decode, ascii_hex_decode_filter.cpp:10-69 *)
Definition hex_pair_to_byte (pair : bytes) : res N := do v <- stoi 16 pair;; to_uchar v.
Fixpoint ahex_loop (n : nat) (s : bytes) (pair : bytes) : res bytes :=
  let finish := match pair with [] => Ok [] | _ => do b <- hex_pair_to_byte (pair ++ [0]);; Ok [b] end in   (* 56-66 *)
  match n with
  | O => finish
  | S n' =>
      match s with
      | [] => Throw EGeneral
      | ch :: t =>
          if ch =? 62 then finish
          else if is_white ch then ahex_loop n' t pair
          else
            let pair' := pair ++ [ch] in
            if Nat.eqb (length pair') 2 then
              do b <- hex_pair_to_byte pair';;
              do r <- ahex_loop n' t [];;
              Ok (b :: r)
            else ahex_loop n' t pair'
      end
  end.
Definition asciihex_decode (s : bytes) (length : nat) : res bytes := ahex_loop length s [].

(** ** FlateDecodeFilter::ApplyPredictor, flate_decode_filter.cpp:48-195 *)
Definition at_ (l : bytes) (i : nat) : N := nth i l 0.
Fixpoint upd (l : bytes) (i : nat) (v : N) : bytes :=
  match l, i with
  | [], _ => []
  | _ :: t, O => v :: t
  | x :: t, S k => x :: upd t k v
  end.
Definition add8 (a b : N) : N := (a + b) mod 256.
(** for (i = 0; i < count; i++) body *)
Definition for_to (count : nat) (body : bytes -> nat -> bytes) (cur : bytes) : bytes := fold_left body (seq 0 count) cur.

(** lines 163-180 *)
Definition paeth (a b c : N) : N :=
  let p := (Z.of_N a + Z.of_N b - Z.of_N c)%Z in
  let pa := Z.abs (p - Z.of_N a) in let pb := Z.abs (p - Z.of_N b) in let pc := Z.abs (p - Z.of_N c) in
  if (pa <=? pb)%Z && (pa <=? pc)%Z then a else if (pb <=? pc)%Z then b else c.

(** lines 113-188: one row in place.  [row = length cur = length prior].  When a pixel is longer than a row the Average and
    Paeth cases index past the end of both vectors. *)
Definition unfilter_row (bpp : nat) (filter : N) (prior cur : bytes) : res bytes :=
  let row := length cur in
  match filter with
  | 1 => Ok (for_to (row - bpp) (fun c i => upd c (bpp + i) (add8 (at_ c (bpp + i)) (at_ c i))) cur)
  | 2 => Ok (for_to row (fun c i => upd c i (add8 (at_ c i) (at_ prior i))) cur)
  | 3 => if Nat.ltb row bpp then Undef else
         let cur := for_to bpp (fun c i => upd c i (add8 (at_ c i) (at_ prior i / 2))) cur in
         Ok (for_to (row - bpp) (fun c i => upd c i (add8 (at_ c i) ((at_ c i + at_ prior (bpp + i)) / 2))) cur)
  | 4 => if Nat.ltb row bpp then Undef else
         let cur := for_to bpp (fun c i => upd c i (add8 (at_ c i) (at_ prior i))) cur in
         Ok (for_to (row - bpp) (fun c i => upd c i (add8 (at_ c i) (paeth (at_ c i) (at_ prior (bpp + i)) (at_ prior i)))) cur)
  | _ => Ok cur          (* 0, and unknown types are logged and taken as they are *)
  end.

(** lines 104-192; each turn consumes at least one byte, so [length s] turns suffice *)
Fixpoint unfilter (fuel : nat) (bpp row : nat) (prior s : bytes) : res bytes :=
  match s with
  | [] => Ok []
  | f :: t =>
      match fuel with
      | O => NoFuel
      | S fuel' =>
          if Nat.ltb (length t) row then Throw EGeneral
          else
            do cur <- unfilter_row bpp f prior (firstn row t);;
            do r <- unfilter fuel' bpp row cur (skipn row t);;
            Ok (cur ++ r)
      end
  end.

(** lines 48-195 with the parameters as integers (their defaults are applied by the caller).  Allocation failure for huge rows
    is not modelled. *)
Definition apply_predictor (predictor colors bits columns : Z) (s : bytes) : res bytes :=
  if (predictor =? 1)%Z then Ok s
  else if (predictor =? 2)%Z then Throw ENotSupported
  else if (predictor <? 10)%Z then Throw EGeneral
  else
    do colors <- safe_convert uint32_t int64_t colors;;
    do columns <- safe_convert uint32_t int64_t columns;;
    do bits <- safe_convert uint32_t int64_t bits;;
    do pixel_bits <- safe_multiply uint32_t uint32_t colors bits;;
    do colors_columns <- safe_multiply uint32_t uint32_t colors columns;;
    do row_bits <- safe_multiply uint32_t uint32_t colors_columns bits;;
    do row7 <- safe_addition uint32_t uint32_t int32_t row_bits 7;;
    let bpp := Z.to_nat (pixel_bits / 8) in
    let row := Z.to_nat (row7 / 8) in
    unfilter (length s) bpp row (repeat 0 row) s.

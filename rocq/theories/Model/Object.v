(** Direct objects and their serialisation (syntax/objects/*.cpp, the ToPdfStreamInternal functions). *)
From Coq Require Import List NArith ZArith Bool String.
From Verif.Model Require Import Base Char Numbers SMap.
Import ListNotations.
Local Open Scope N_scope.

(** Object values (syntax/objects/*.h).
    - [OInt]: IntegerObject holding a signed 64-bit value (numeric_object.h, Type::SignedInteger).
    - [OReal neg m p]: RealObject holding the decimal number (-1)^neg * m / 10^p with display precision p.  Simplification: the
      code stores a double; the model keeps the exact decimal.
    - [OLit], [OHex]: string objects, holding the decoded value (GetValue), unencrypted file.
    - [ODict]: entries in std::map order.
    - [OStream]: stream object with the raw (encoded) data that follows its dictionary. *)
Inductive obj : Type :=
| ONull
| OBool (b : bool)
| OInt (z : Z)
| OReal (neg : bool) (m : N) (p : N)
| OName (n : list N)
| OLit (v : list N)
| OHex (v : list N)
| ORef (num gen : N)
| OArr (l : list obj)
| ODict (l : list (list N * obj))
| OStream (l : list (list N * obj)) (data : list N).

(** NameObject::ToString, name_object.cpp:146-175, GetHexadecimalNotation 125-144.  [current] is a signed char. *)
Definition name_char (b : N) : bytes :=
  if b =? 35 then 35 :: fmt_02X b
  else if negb (is_regular_char b) then 35 :: fmt_02X b
  else if (schar b <? 33)%Z || (126 <? schar b)%Z then 35 :: fmt_02X b
  else [b].
Definition name_to_string (n : bytes) : bytes := flat_map name_char n.

(** NameObject::CreateFromEncoded, name_object.cpp:19-41: same loop as the tokenizer on a buffer; what follows the first
    non-regular character is ignored. *)
Fixpoint name_create_from_encoded (s : bytes) : res bytes :=
  match s with
  | [] => Ok []
  | c :: t =>
      if is_regular c then
        if c =? 35 then
          match t with
          | a :: b :: t' =>
              do v <- stoi 16 [a; b];;
              do ch <- to_uchar v;;
              do cs <- name_create_from_encoded t';;
              Ok (ch :: cs)
          | _ =>
              do v <- stoi 16 t;;
              do ch <- to_uchar v;;
              Ok [ch]
          end
        else
          do cs <- name_create_from_encoded t;;
          Ok (c :: cs)
      else Ok []
  end.

(** LiteralStringObject::ToPdfStreamInternal, string_object.cpp:517-575, one character *)
Definition literal_char (b : N) : bytes :=
  if b =? 10 then str "\n"
  else if b =? 13 then str "\r"
  else if b =? 9 then str "\t"
  else if b =? 8 then str "\b"
  else if b =? 12 then str "\f"
  else if b =? 40 then str "\("
  else if b =? 41 then str "\)"
  else if b =? 92 then str "\\"
  else if negb (is_print b) then 92 :: fmt_03o b
  else [b].
Definition literal_to_pdf (v : bytes) : bytes := [40] ++ flat_map literal_char v ++ [41].

(** LiteralStringObject::GetRawValueDecoded, string_object.cpp:187-368.  [nested] is nested_count.
    The octal loop (322-345) takes up to three decimal digits [IsNumeric], 8 and 9 included. *)
Definition take_numeric3 (s : bytes) : bytes * bytes :=
  match s with
  | a :: t1 =>
      if is_numeric a then
        match t1 with
        | b :: t2 =>
            if is_numeric b then
              match t2 with
              | c :: t3 => if is_numeric c then ([a; b; c], t3) else ([a; b], t2)
              | [] => ([a; b], [])
              end
            else ([a], t1)
        | [] => ([a], [])
        end
      else ([], s)
  | [] => ([], [])
  end.

Fixpoint literal_decode_fuel (fuel : nat) (nested : Z) (s : bytes) : res bytes :=
  match fuel with
  | O => NoFuel
  | S f =>
    match s with
    | [] => if (nested =? 0)%Z then Ok [] else Throw EGeneral
    | c :: t =>
        let nested1 := if c =? 40 then (nested + 1)%Z else nested in
        if (c =? 41) && (nested1 - 1 <? 0)%Z then
          (* underflow: the loop is left with nested_count = -1, so line 363 throws *)
          Throw EGeneral
        else
          let nested2 := if c =? 41 then (nested1 - 1)%Z else nested1 in
          if c =? 13 then
            match t with
            | 10 :: t' => do r <- literal_decode_fuel f nested2 t';; Ok (13 :: 10 :: r)
            | _ => do r <- literal_decode_fuel f nested2 t;; Ok (13 :: r)
            end
          else if negb (c =? 92) then do r <- literal_decode_fuel f nested2 t;; Ok (c :: r)
          else
            match t with
            | [] => if (nested2 =? 0)%Z then Ok [] else Throw EGeneral
            | e :: t' =>
                if e =? 114 then do r <- literal_decode_fuel f nested2 t';; Ok (13 :: r)
                else if e =? 102 then do r <- literal_decode_fuel f nested2 t';; Ok (12 :: r)
                else if e =? 116 then do r <- literal_decode_fuel f nested2 t';; Ok (9 :: r)
                else if e =? 110 then do r <- literal_decode_fuel f nested2 t';; Ok (10 :: r)
                else if e =? 98 then do r <- literal_decode_fuel f nested2 t';; Ok (8 :: r)
                else if e =? 40 then do r <- literal_decode_fuel f nested2 t';; Ok (40 :: r)
                else if e =? 41 then do r <- literal_decode_fuel f nested2 t';; Ok (41 :: r)
                else if e =? 92 then do r <- literal_decode_fuel f nested2 t';; Ok (92 :: r)
                else if e =? 13 then
                  match t' with
                  | 10 :: t'' => literal_decode_fuel f nested2 t''
                  | _ => literal_decode_fuel f nested2 t'
                  end
                else if e =? 10 then literal_decode_fuel f nested2 t'
                else if negb (is_numeric e) then literal_decode_fuel f nested2 t
                else
                  let '(oct, t'') := take_numeric3 t in
                  do v <- stoi 8 oct;;
                  do ch <- to_uchar v;;
                  do r <- literal_decode_fuel f nested2 t'';;
                  Ok (ch :: r)
            end
    end
  end.
Definition literal_decode (raw : bytes) : res bytes := literal_decode_fuel (S (List.length raw)) 0%Z raw.

(** HexadecimalStringObject::ToPdfStreamInternal, string_object.cpp:481 *)
Definition hex_to_pdf (v : bytes) : bytes := [60] ++ flat_map fmt_02X v ++ [62].

(** HexadecimalStringObject::GetValue, string_object.cpp:388-415 *)
Fixpoint hex_pairs (s : bytes) : res bytes :=
  match s with
  | a :: b :: t =>
      do v <- stoi 16 [a; b];;
      do ch <- to_uchar v;;
      do r <- hex_pairs t;;
      Ok (ch :: r)
  | _ => Ok []
  end.
Definition hex_decode (raw : bytes) : res bytes :=
  hex_pairs (if Nat.odd (List.length raw) then raw ++ [48] else raw).

(** NumericObjectBackend::RealString, numeric_object.cpp:204-228.  Assumption: fmt prints the stored double as the exact decimal
    (true for up to 15 significant digits, see Model/Reals.v); without precision, fmt::to_string of an integral value prints no point. *)
Definition real_to_pdf (neg : bool) (m p : N) : bytes :=
  (if neg then [45] else []) ++
  (if p =? 0 then to_string_N m
   else to_string_N (m / 10 ^ p) ++ [46] ++ pad_zero (N.to_nat p) (to_string_N (m mod 10 ^ p))).

(** output << (first ? "" : " "), mixed_array_object.cpp:146-151 and dictionary_object.cpp:72-79 *)
Fixpoint join_sp (l : list bytes) : bytes :=
  match l with
  | [] => []
  | [x] => x
  | x :: t => x ++ [32] ++ join_sp t
  end.

(** Object::ToPdfStream, object.cpp:53-63 without override attribute; per type: null_object.cpp:34-36, boolean_object.cpp:39-41,
    integer_object.cpp:39-41 with numeric_object.cpp:196-198, real_object.cpp:43-45, name_object.cpp:108-111, string_object.cpp,
    indirect_reference_object.cpp:231-237, mixed_array_object.cpp:144-154, dictionary_object.cpp:68-82,
    stream_object.cpp:598-611 *)
Fixpoint to_pdf (o : obj) : bytes :=
  match o with
  | ONull => str "null"
  | OBool true => str "true"
  | OBool false => str "false"
  | OInt z => to_string_Z z
  | OReal neg m p => real_to_pdf neg m p
  | OName n => 47 :: name_to_string n
  | OLit v => literal_to_pdf v
  | OHex v => hex_to_pdf v
  | ORef num gen => to_string_N num ++ [32] ++ to_string_N gen ++ str " R"
  | OArr l => [91] ++ join_sp (map to_pdf l) ++ [93]
  | ODict l => [60; 60] ++ join_sp (map (fun e => (47 :: name_to_string (fst e)) ++ [32] ++ to_pdf (snd e)) l) ++ [62; 62]
  | OStream l data =>
      ([60; 60] ++ join_sp (map (fun e => (47 :: name_to_string (fst e)) ++ [32] ++ to_pdf (snd e)) l) ++ [62; 62])
        ++ [10] ++ str "stream" ++ [10] ++ data ++ str "endstream"
  end.

(** syntax/parsers/parser.cpp, region Objects – recursive descent parser of direct objects. *)
From Coq Require Import List NArith ZArith Bool String.
From Verif.Model Require Import Base Char Numbers SMap Object Token Lines.
Import ListNotations.
Local Open Scope N_scope.

(** SafeConvert<big_uint>(big_int), conversion_utils.h:57-75 *)
Definition to_u64 (v : Z) : res N := if (v <? 0)%Z then Throw EConversion else Ok (Z.to_N v).

(** SafeConvert<ushort>(big_int), conversion_utils.h:57-75 *)
Definition to_u16 (v : Z) : res N :=
  if (v <? 0)%Z then Throw EConversion
  else if (v <=? 65535)%Z then Ok (Z.to_N v) else Throw EConversion.

(** ParserUtils::CreateReal, parser_utils.cpp:35-48.  The token is [sign] digits '.' digits.  stod throws when there is no digit at all.
    The precision is the number of digits after the point.  Simplification: exact decimal instead of a double, no overflow. *)
Definition real_parts (s : bytes) : bool * bytes * bytes :=
  let '(neg, s1) := match s with
                    | 45 :: t => (true, t)
                    | 43 :: t => (false, t)
                    | _ => (false, s)
                    end in
  let '(ip, s2) := span is_numeric s1 in
  (neg, ip, List.tl s2).
Definition create_real (s : bytes) : res obj :=
  let '(neg, ip, fp) := real_parts s in
  let '(m, n) := take_digits 10 (ip ++ fp) 0 O in
  match n with
  | O => Throw EStdInvalid
  | S _ => Ok (OReal neg m (N.of_nat (List.length fp)))
  end.

Section Parser.
(** The token dictionary of the parser, and the file the parser works for, which resolves an indirect /Length. *)
Variable d : dictionary.
Variable resolve_length : N -> N -> res Z.

(** ParserBase::ReadIndirectReference, parser.cpp:43-63; [z] is the integer already read, [rest] the input after it. *)
Definition read_reference (z : Z) (rest : bytes) : res (obj * bytes) :=
  do '(tk1, r1) <- read_token_skip d rest;;
  if ttype_eqb (fst tk1) TyInt then
    do gen <- stoll (snd tk1);;
    do '(tk2, r2) <- read_token_skip d r1;;
    if ttype_eqb (fst tk2) TyRefMarker then
      do num <- to_u64 z;;
      do g <- to_u16 gen;;
      Ok (ORef num g, r2)
    else Ok (OInt z, rest)
  else Ok (OInt z, rest).

Definition is_null (o : obj) : bool := match o with ONull => true | _ => false end.
Definition is_stream (o : obj) : bool := match o with OStream _ _ => true | _ => false end.

(** The length used at parser.cpp:147-160: direct, or resolved through the file; anything else fails to convert.  [ENotInitialized]
    says that the file is still being opened: the length is then not looked up and the fallback is used.  Simplification: a length
    that is neither an integer nor a reference also uses the fallback while the file is being opened; here it always fails. *)
Definition stream_length (l : list (bytes * obj)) : res (option Z) :=
  match sm_find (str "Length") l with
  | None => Ok None
  | Some (OInt z) => Ok (Some z)
  | Some (ORef n g) =>
      match resolve_length n g with
      | Throw ENotInitialized => Ok None
      | r => do z <- r;; Ok (Some z)
      end
  | Some _ => Throw EConversion
  end.

(** parser.cpp:199-212, line that begins with endstream at distance [off] from the beginning [whole] of the stream data: the end of
    line in front of it does not count.  (For [off] = 1 the byte before the data is the end of line after the word stream.) *)
Definition line_end_before (off : nat) (whole : bytes) : nat :=
  match off with
  | O => O
  | S O => 1%nat
  | S (S k) =>
      let a := nth k whole 0 in
      let b := nth (S k) whole 0 in
      if a =? 13 then if b =? 10 then 2%nat else 1%nat
      else if (b =? 13) || (b =? 10) then 1%nat else O
  end.

(** The search for endstream, parser.cpp:184-228: [s] is the input at distance [off] from the beginning of the data; the result is the
    computed length and the input after the search.  A computed length below zero becomes zero (222-228). *)
Fixpoint scan_endstream (fuel : nat) (whole : bytes) (off : nat) (s : bytes) : res (nat * bytes) :=
  match fuel with
  | O => NoFuel
  | S f =>
      let '(line, r, eof) := readline s in
      match find_sub (str "endstream") line with
      | None => if eof then Throw EGeneral else scan_endstream f whole (off + (List.length s - List.length r)) r
      | Some pos =>
          do _ <- peek_type_skip d r;;
          match pos with
          | O => do '(_, r2) <- expect_skip d TyStreamEnd s;; Ok ((off - line_end_before off whole)%nat, r2)
          | S _ => Ok ((off + pos)%nat, r)
          end
      end
  end.

(** The fallback for a missing or wrong length, parser.cpp:181-251.  The /Length entry is created or its integer is corrected; a
    reference stays (overwriting insert keeps the old value, C11; in an opened file the referenced integer object is corrected).
    Simplification: the data is the one found by the search, although the data of a stream whose /Length is a reference found while
    opening is later taken with the referenced length. *)
Definition recover_stream (l : list (bytes * obj)) (s : bytes) : res (obj * bytes) :=
  do '(n, r) <- scan_endstream (S (List.length s)) s 0 s;;
  let len := OInt (Z.of_nat n) in
  let l' := match sm_find (str "Length") l with
            | None => sm_insert (str "Length") len l
            | Some (OInt _) => sm_insert (str "Length") len (sm_remove (str "Length") l)
            | Some _ => l
            end in
  Ok (OStream l' (firstn n s), r).

(** ParserBase::ReadDictionaryStream, parser.cpp:130-255, after the dictionary.  Simplification: a negative length seeks backwards; the
    fallback that follows, unless the word endstream happens to stand there, is taken at once. *)
Definition read_stream_tail (l : list (bytes * obj)) (s : bytes) : res (obj * bytes) :=
  do ty <- peek_type_skip d s;;
  if ttype_eqb ty TyStreamBegin then
    do '(_, s1) <- expect_skip d TyStreamBegin s;;
    do '(tk, s2) <- read_token d s1;;
    if ttype_eqb (fst tk) TyEol then
      do len <- stream_length l;;
      match len with
      | None => recover_stream l s2
      | Some z =>
          if (z <? 0)%Z then recover_stream l s2
          else
            do '(tk2, s3) <- read_token_skip d (skipn (Z.to_nat z) s2);;
            if ttype_eqb (fst tk2) TyStreamEnd then Ok (OStream l (firstn (Z.to_nat z) s2), s3)
            else recover_stream l s2
      end
    else Throw EParse
  else Ok (ODict l, s).

(** ParserBase::ReadDirectObject, parser.cpp:336-369, with ReadArray (257-275) and ReadDictionary (79-128) as inner loops.
    [fuel] bounds recursion depth plus loop iterations: every step consumes a token, see [parse_direct]. *)
Fixpoint parse_obj (fuel : nat) (s : bytes) : res (obj * bytes) :=
  match fuel with
  | O => NoFuel
  | S f =>
      do '(tk, rest) <- read_token_skip d s;;
      match fst tk with
      | TyDictBegin => do '(l, r) <- parse_dict f rest [];; read_stream_tail l r
      | TyInt => do z <- stoll (snd tk);; read_reference z rest
      | TyArrayBegin => do '(l, r) <- parse_array f rest;; Ok (OArr l, r)
      | TyName => Ok (OName (snd tk), rest)
      | TyHex => do v <- hex_decode (snd tk);; Ok (OHex v, rest)
      | TyLit => do v <- literal_decode (snd tk);; Ok (OLit v, rest)
      | TyReal => do o <- create_real (snd tk);; Ok (o, rest)
      | TyTrue => Ok (OBool true, rest)
      | TyFalse => Ok (OBool false, rest)
      | TyNull => Ok (ONull, rest)
      | _ => Throw EParse
      end
  end
with parse_array (fuel : nat) (s : bytes) : res (list obj * bytes) :=
  match fuel with
  | O => NoFuel
  | S f =>
      do '(tk, rest) <- read_token_skip d s;;
      if ttype_eqb (fst tk) TyArrayEnd then Ok ([], rest)
      else
        do '(o, r1) <- parse_obj f s;;
        if is_stream o then Throw EConversion   (* StreamObject is not a ContainableObject *)
        else
          do '(l, r2) <- parse_array f r1;;
          Ok (o :: l, r2)
  end
with parse_dict (fuel : nat) (s : bytes) (acc : list (bytes * obj)) : res (list (bytes * obj) * bytes) :=
  match fuel with
  | O => NoFuel
  | S f =>
      do '(tk, rest) <- read_token_skip d s;;
      if ttype_eqb (fst tk) TyDictEnd then Ok (acc, rest)
      else
        do '(k, r1) <- parse_obj f s;;
        do '(v, r2) <- parse_obj f r1;;
        match v, k with
        | ONull, _ => parse_dict f r2 acc                       (* parser.cpp:89-91 *)
        | _, OName n =>
            if sm_contains n acc then parse_dict f r2 acc       (* parser.cpp:110-115 *)
            else if is_stream v then Throw EConversion
            else parse_dict f r2 (sm_insert n v acc)            (* parser.cpp:122-123 *)
        | _, _ => parse_dict f r2 acc                           (* parser.cpp:98-106 *)
        end
  end.

(** ReadDirectObject with a bound that is never reached (Proof/Parser.v, [parse_direct_total]). *)
Definition parse_direct (s : bytes) : res (obj * bytes) := parse_obj (2 * List.length s + 2) s.
End Parser.

(** syntax/parsers/tokenizer.cpp – the forward tokenizer as a function from the remaining input to a token and the
    input remaining after it.  The position cache (tokenizer.cpp:304-336) is modelled separately in Model/TokenCache.v. *)
From Coq Require Import List NArith ZArith Bool String.
From Verif.Model Require Import Base Char Numbers.
Import ListNotations.
Local Open Scope N_scope.

(** Token::Type, syntax/parsers/token.h:13-145.  The keyword types of the character-map and content-stream dictionaries
    (token.h:44-144) are represented by [TyKw keyword]. *)
Inductive ttype : Set :=
| TyUnknown | TyEol | TyDictBegin | TyDictEnd | TyArrayBegin | TyArrayEnd | TyName | TyHex | TyLit | TyInt | TyReal
| TyRefMarker | TyStreamBegin | TyStreamEnd | TyObjBegin | TyObjEnd | TyXref | TyStartXref | TyTrailer
| TyNull | TyTrue | TyFalse | TyEof
| TyKw (s : list N).

Definition token : Type := (ttype * bytes)%type.

Fixpoint bytes_eqb (a b : bytes) : bool :=
  match a, b with
  | [], [] => true
  | x :: a', y :: b' => (x =? y) && bytes_eqb a' b'
  | _, _ => false
  end.

Definition ttype_eqb (a b : ttype) : bool :=
  match a, b with
  | TyUnknown, TyUnknown | TyEol, TyEol | TyDictBegin, TyDictBegin | TyDictEnd, TyDictEnd
  | TyArrayBegin, TyArrayBegin | TyArrayEnd, TyArrayEnd | TyName, TyName | TyHex, TyHex | TyLit, TyLit
  | TyInt, TyInt | TyReal, TyReal | TyRefMarker, TyRefMarker | TyStreamBegin, TyStreamBegin
  | TyStreamEnd, TyStreamEnd | TyObjBegin, TyObjBegin | TyObjEnd, TyObjEnd | TyXref, TyXref
  | TyStartXref, TyStartXref | TyTrailer, TyTrailer | TyNull, TyNull | TyTrue, TyTrue | TyFalse, TyFalse
  | TyEof, TyEof => true
  | TyKw x, TyKw y => bytes_eqb x y
  | _, _ => false
  end.

(** Token dictionaries: TokenDictionaryBase::Find, syntax/parsers/token_dictionary.cpp:136-157 *)
Definition dictionary := bytes -> ttype.

(** ParserTokenDictionary::Initialize, token_dictionary.cpp:159-177 with the keyword texts of lines 15-25 *)
Definition parser_dictionary : dictionary := fun w =>
  if bytes_eqb w (str "stream") then TyStreamBegin
  else if bytes_eqb w (str "endstream") then TyStreamEnd
  else if bytes_eqb w (str "obj") then TyObjBegin
  else if bytes_eqb w (str "endobj") then TyObjEnd
  else if bytes_eqb w (str "xref") then TyXref
  else if bytes_eqb w (str "startxref") then TyStartXref
  else if bytes_eqb w (str "trailer") then TyTrailer
  else if bytes_eqb w (str "null") then TyNull
  else if bytes_eqb w (str "true") then TyTrue
  else if bytes_eqb w (str "false") then TyFalse
  else if bytes_eqb w (str "R") then TyRefMarker
  else TyUnknown.

(** Tokenizer::ReadName, tokenizer.cpp:232-251 (the leading slash was consumed).  After '#', [Read(2)] takes two bytes of any
    kind, or fewer at the end of the input (input_stream.cpp:18-33). *)
Fixpoint read_name (s : bytes) : res (bytes * bytes) :=
  match s with
  | [] => Ok ([], [])
  | c :: t =>
      if is_regular c then
        if c =? 35 then
          match t with
          | a :: b :: t' =>
              do v <- stoi 16 [a; b];;
              do ch <- to_uchar v;;
              do '(cs, rest) <- read_name t';;
              Ok (ch :: cs, rest)
          | _ =>
              do v <- stoi 16 t;;
              do ch <- to_uchar v;;
              Ok ([ch], [])
          end
        else
          do '(cs, rest) <- read_name t;;
          Ok (c :: cs, rest)
      else Ok ([], s)
  end.

(** Tokenizer::ReadHexadecimalString, tokenizer.cpp:199-230: white space skipped, letters and digits collected, '>' or the end
    of input ends the token. *)
Fixpoint read_hex (s : bytes) : res (bytes * bytes) :=
  match s with
  | [] => Ok ([], [])
  | c :: t =>
      if c =? 62 then Ok ([], t)
      else if is_white c then read_hex t
      else if is_numeric c || is_alpha c then
        do '(cs, rest) <- read_hex t;;
        Ok (c :: cs, rest)
      else Throw EGeneral
  end.

(** Tokenizer::ReadLiteralString, tokenizer.cpp:253-302; [nested] is nested_count, [bs] is previous_backslash. *)
Fixpoint read_literal (nested : N) (bs : bool) (s : bytes) : res (bytes * bytes) :=
  match s with
  | [] => Throw EGeneral
  | c :: t =>
      if bs then
        do '(cs, rest) <- read_literal nested false t;;
        Ok (c :: cs, rest)
      else if (c =? 41) && (nested =? 1) then Ok ([], t)
      else
        let nested' := if c =? 40 then nested + 1 else if c =? 41 then nested - 1 else nested in
        do '(cs, rest) <- read_literal nested' (c =? 92) t;;
        Ok (c :: cs, rest)
  end.

(** Tokenizer::ReadUnknown, tokenizer.cpp:103-170: numbers and keywords; [c] is the character already consumed. *)
Definition read_unknown (d : dictionary) (c : N) (s : bytes) : token * bytes :=
  let has_dot := c =? 46 in
  if is_numeric c || (c =? 43) || (c =? 45) || has_dot then
    let '(ds, s1) := span is_numeric s in
    if has_dot then ((TyReal, c :: ds), s1)
    else match s1 with
         | 46 :: s2 => let '(ds2, s3) := span is_numeric s2 in ((TyReal, c :: ds ++ [46] ++ ds2), s3)
         | _ => ((TyInt, c :: ds), s1)
         end
  else
    let '(cs, s1) := span is_regular s in
    ((d (c :: cs), c :: cs), s1).

(** Tokenizer::ReadToken, tokenizer.cpp:30-101, and ReadComment, 172-197.  [comment] says that the loop is inside a comment. *)
Fixpoint read_token_aux (d : dictionary) (comment : bool) (s : bytes) : res (token * bytes) :=
  match s with
  | [] => Ok ((TyEof, []), [])
  | c :: t =>
      if comment then
        if c =? 13 then
          match t with
          | 10 :: t' => read_token_aux d false t'
          | _ => read_token_aux d false t
          end
        else if c =? 10 then read_token_aux d false t
        else read_token_aux d true t
      else if (c =? 32) || (c =? 12) || (c =? 9) || (c =? 0) then read_token_aux d false t
      else if c =? 37 then read_token_aux d true t
      else if c =? 10 then Ok ((TyEol, []), t)
      else if c =? 13 then
        match t with
        | 10 :: t' => Ok ((TyEol, []), t')
        | _ => Ok ((TyEol, []), t)
        end
      else if c =? 62 then
        match t with
        | 62 :: t' => Ok ((TyDictEnd, []), t')
        | _ => Throw EGeneral
        end
      else if c =? 60 then
        match t with
        | 60 :: t' => Ok ((TyDictBegin, []), t')
        | 62 :: t' => Ok ((TyHex, []), t')
        | _ => do '(cs, rest) <- read_hex t;; Ok ((TyHex, cs), rest)
        end
      else if c =? 91 then Ok ((TyArrayBegin, []), t)
      else if c =? 93 then Ok ((TyArrayEnd, []), t)
      else if c =? 47 then do '(cs, rest) <- read_name t;; Ok ((TyName, cs), rest)
      else if c =? 40 then do '(cs, rest) <- read_literal 1 false t;; Ok ((TyLit, cs), rest)
      else Ok (read_unknown d c t)
  end.

Definition read_token (d : dictionary) (s : bytes) : res (token * bytes) := read_token_aux d false s.

(** ParserBase::ReadTokenSkip, parser.cpp:429-437: the first token that is not an end of line. Each EOL token consumes at least
    one character, so [length s + 1] iterations always suffice ([read_token_skip_fuel] in Proof/Token.v). *)
Fixpoint read_skip_fuel (fuel : nat) (d : dictionary) (s : bytes) : res (token * bytes) :=
  match fuel with
  | O => NoFuel
  | S f =>
      do '(tk, rest) <- read_token d s;;
      match fst tk with
      | TyEol => read_skip_fuel f d rest
      | _ => Ok (tk, rest)
      end
  end.
Definition read_token_skip (d : dictionary) (s : bytes) : res (token * bytes) := read_skip_fuel (S (List.length s)) d s.

(** ParserBase::PeekTokenTypeSkip, parser.cpp:439-461: type of that token, the position is restored *)
Definition peek_type_skip (d : dictionary) (s : bytes) : res ttype :=
  do '(tk, _) <- read_token_skip d s;; Ok (fst tk).

(** ParserBase::ReadTokenWithTypeSkip, parser.cpp:463-478 (for a type other than EOL) *)
Definition expect_skip (d : dictionary) (ty : ttype) (s : bytes) : res (bytes * bytes) :=
  do '(tk, rest) <- read_token_skip d s;;
  if ttype_eqb (fst tk) ty then Ok (snd tk, rest) else Throw EParse.

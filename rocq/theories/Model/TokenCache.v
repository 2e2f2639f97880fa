(** Peeking and reading tokens: the position cache of syntax/parsers/tokenizer.cpp and the position of the input stream
    (utils/streams/input_stream.cpp:55-106). *)
From Coq Require Import List NArith ZArith Bool String.
From Coq Require Import List.
From Verif.Model Require Import Base Char Numbers Token.
Import ListNotations.
Local Open Scope Z_scope.

(** GetInputPosition, input_stream.cpp:55-63: the end-of-file flag shows as BAD_OFFSET. *)
Definition bad_offset : Z := -1.

(** The text from a position on.  Seeking past the end of the text is not modelled. *)
Definition text_at (text : bytes) (pos : Z) : bytes :=
  if pos =? bad_offset then [] else skipn (Z.to_nat pos) text.

(** Whether the token, which ends with the text, has looked at the end of the file, so that the flag is set: every token does,
    except those that end with a delimiter of their own (tokenizer.cpp:52-97, 199-302). *)
Definition saw_end (tk : token) (text : bytes) : bool :=
  match fst tk with
  | TyDictBegin | TyDictEnd | TyArrayBegin | TyArrayEnd | TyLit => false
  | TyEol => negb (last text 0%N =? 10)%N
  | TyHex => negb (last text 0%N =? 62)%N
  | _ => true
  end.

(** Where a read stops that fails: the rest of the text and whether the end-of-file flag is set.  Hexadecimal strings,
    tokenizer.cpp:199-230 *)
Fixpoint hex_stop (s : bytes) : bytes * bool :=
  match s with
  | [] => ([], true)
  | c :: t => if is_white c || is_numeric c || is_alpha c then hex_stop t else (t, false)
  end.
(** names, tokenizer.cpp:232-251 *)
Fixpoint name_stop (s : bytes) : bytes * bool :=
  match s with
  | [] => ([], true)
  | c :: t =>
      if (c =? 35)%N then
        match t with
        | a :: b :: t' =>
            match (do v <- stoi 16 [a; b];; to_uchar v) with
            | Ok _ => name_stop t'
            | _ => (t', false)
            end
        | _ => ([], true)
        end
      else name_stop t
  end.
(** ReadToken, tokenizer.cpp:30-101 *)
Fixpoint token_stop (comment : bool) (s : bytes) : bytes * bool :=
  match s with
  | [] => ([], true)
  | c :: t =>
      if comment then
        if (c =? 13)%N then
          match t with
          | 10%N :: t' => token_stop false t'
          | _ => token_stop false t
          end
        else if (c =? 10)%N then token_stop false t
        else token_stop true t
      else if ((c =? 32) || (c =? 12) || (c =? 9) || (c =? 0))%N then token_stop false t
      else if (c =? 37)%N then token_stop true t
      else if (c =? 62)%N then (t, match t with [] => true | _ => false end)
      else if (c =? 60)%N then hex_stop t
      else if (c =? 47)%N then name_stop t
      else ([], true)
  end.

(** The part of ReadToken behind the cache, tokenizer.cpp:30-101: the outcome and the position after it *)
Definition lex (d : dictionary) (text : bytes) (pos : Z) : res token * Z :=
  let s := text_at text pos in
  let at_rest (rest : bytes) (flag : bool) : Z :=
    match rest with
    | [] => if flag then bad_offset else Z.of_nat (List.length text)
    | _ => Z.of_nat (List.length text - List.length rest)
    end in
  match read_token d s with
  | Ok (tk, rest) => (Ok tk, at_rest rest (saw_end tk text))
  | Throw e => (Throw e, let '(rest, flag) := token_stop false s in at_rest rest flag)
  | Undef => (Undef, pos)
  | NoFuel => (NoFuel, pos)
  end.

(** std::map<stream_offset, CacheItem>: by position, increasing *)
Definition cache : Type := list (Z * (token * Z)).
Fixpoint cache_find (c : cache) (pos : Z) : option (token * Z) :=
  match c with
  | [] => None
  | (p, item) :: r => if p =? pos then Some item else cache_find r pos
  end.
Fixpoint cache_set (c : cache) (pos : Z) (item : token * Z) : cache :=
  match c with
  | [] => [(pos, item)]
  | (p, i) :: r => if pos =? p then (p, item) :: r else if pos <? p then (pos, item) :: c else (p, i) :: cache_set r pos item
  end.
(** TOKENIZER_CACHE_SIZE, utils/constants.cpp:9 *)
Definition cache_size : nat := 10.

(** the tokenizer: position of the input stream and the cache *)
Record reader : Type := { position : Z; known : cache }.

(** Tokenizer::ReadToken, tokenizer.cpp:20-28 and 30-101 *)
Definition read_one (d : dictionary) (text : bytes) (r : reader) : res token * reader :=
  match cache_find (known r) (position r) with
  | Some (tk, advance) => (Ok tk, {| position := advance; known := known r |})
  | None => let '(o, p) := lex d text (position r) in (o, {| position := p; known := known r |})
  end.

(** Tokenizer::PeekToken, tokenizer.cpp:313-337: when the read fails, the position is not set back *)
Definition peek_one (d : dictionary) (text : bytes) (r : reader) : res token * reader :=
  match cache_find (known r) (position r) with
  | Some (tk, _) => (Ok tk, r)
  | None =>
      let '(o, r') := read_one d text r in
      match o with
      | Ok tk =>
          let c := if (List.length (known r) =? cache_size)%nat then tl (known r) else known r in
          (o, {| position := position r; known := cache_set c (position r) (tk, position r') |})
      | _ => (o, r')
      end
  end.

(** What a parser does with it: look at the next token or its type, take it, take it and insist on its type
    (tokenizer.cpp:339-346), ask for the position, go to a position. *)
Inductive request : Type := QPeek | QPeekType | QRead | QExpect (ty : ttype) | QTell | QSeek (pos : Z).
Inductive answer : Type := AToken (o : res token) | AType (o : res ttype) | APosition (p : Z) | ANothing.

Definition serve (d : dictionary) (text : bytes) (r : reader) (q : request) : answer * reader :=
  match q with
  | QPeek => let '(o, r') := peek_one d text r in (AToken o, r')
  | QPeekType => let '(o, r') := peek_one d text r in (AType (do tk <- o;; Ok (fst tk)), r')
  | QRead => let '(o, r') := read_one d text r in (AToken o, r')
  | QExpect ty => let '(o, r') := read_one d text r in
      (AToken (do tk <- o;; if ttype_eqb (fst tk) ty then Ok tk else Throw EGeneral), r')
  | QTell => (APosition (position r), r)
  | QSeek p => (ANothing, {| position := p; known := known r |})
  end.

Fixpoint serve_all (d : dictionary) (text : bytes) (r : reader) (qs : list request) : list answer * reader :=
  match qs with
  | [] => ([], r)
  | q :: rest =>
      let '(a, r1) := serve d text r q in
      let '(al, r2) := serve_all d text r1 rest in
      (a :: al, r2)
  end.

(** a tokenizer on a freshly opened stream *)
Definition new_reader : reader := {| position := 0; known := [] |}.

(** Opening a file whose cross-reference data cannot be read: Parser::FindAllObjects, syntax/parsers/parser.cpp:790-888, and the
    fallback of File::Initialize, syntax/files/file.cpp:123-157. *)
From Coq Require Import List NArith ZArith Bool String.
From Verif.Model Require Import Base Char Numbers SMap Object Token Lines Parser Arith Xref StartXref Header FileWrite Chain.
Import ListNotations.
Local Open Scope N_scope.

(** Whether reading the token [tk] from [s] with remaining input [rest] saw the end of the input (the eof flag of the stream): tokens that
    end with their own character do not look further; a hexadecimal string may end with the input, tokenizer.cpp:199-230. *)
Definition saw_end (s : bytes) (tk : token) (rest : bytes) : bool :=
  match rest with
  | _ :: _ => false
  | [] =>
      match fst tk with
      | TyDictBegin | TyDictEnd | TyArrayBegin | TyArrayEnd | TyLit => false
      | TyHex => negb (last s 0 =? 62)
      | _ => true
      end
  end.

(** parser.cpp:826-832 (also 835-841 and 844-850): a token that does not belong to an object; unless it is an end of line, the rest of
    the line is passed over.  Readline refuses a stream that has seen its end, input_stream.cpp:105-115. *)
Definition pass_line (s : bytes) (tk : token) (rest : bytes) : res bytes :=
  match fst tk with
  | TyEol => Ok rest
  | _ => if saw_end s tk rest then Throw EGeneral else let '(_, r, _) := readline rest in Ok r
  end.

(** XrefBase::Add, xref.cpp:245-271, for entries with the object they hold (SetReference, parser.cpp:862) *)
Fixpoint hold (e : xentry) (o : obj) (l : list (xentry * obj)) : list (xentry * obj) :=
  match l with
  | [] => [(e, o)]
  | x :: r =>
      if xnum e <? xnum (fst x) then (e, o) :: l
      else if xnum e =? xnum (fst x) then (e, o) :: r
      else x :: hold e o r
  end.

(** What the search has collected: the objects of the new table, its trailer dictionary, the cross-reference streams met
    (parser.cpp:868-880), and the chain of the file itself, to which ParseXrefStream may add a virtual table (parser.cpp:638-690). *)
Record found : Type := {
  f_held : list (xentry * obj);
  f_trailer : list (bytes * obj);
  f_streams : chain;
  f_left : chain
}.

Section Search.
Variable d : dictionary.
Variable decode : list (bytes * obj) -> bytes -> res bytes.

(** ParserBase::ReadDictionary, parser.cpp:79-128 *)
Definition read_dictionary (s : bytes) : res (list (bytes * obj) * bytes) :=
  do '(_, r) <- expect_skip d TyDictBegin s;;
  parse_dict d opening_length (2 * List.length s + 2) r [].

(** parser.cpp:868-880: what a stream object adds.  A reference as /Type cannot be looked up yet. *)
Definition note_stream (n g : N) (o : obj) (st : found) : res found :=
  match o with
  | OStream m data =>
      match sm_find (str "Type") m with
      | None => Ok st
      | Some (OName t) =>
          if bytes_eqb t (str "XRef") then
            do '(rest, sec) <- parse_stream_section decode (f_left st) n g m data;;
            Ok {| f_held := f_held st; f_trailer := f_trailer st; f_streams := f_streams st ++ [sec]; f_left := rest |}
          else Ok st
      | Some (ORef _ _) => Throw ENotInitialized
      | Some _ => Throw EConversion
      end
  | _ => Ok st
  end.

(** One round of the loop, parser.cpp:796-883, at [s], which is at position [pos]: [None] leaves the loop (801-803) *)
Definition search_round (pos : nat) (s : bytes) (st : found) : res (option (bytes * found)) :=
  do '(tk, r) <- read_token d s;;
  match fst tk with
  | TyEof => Ok None
  | TyEol => Ok (Some (r, st))
  | TyTrailer =>
      do '(m, r2) <- read_dictionary r;;
      Ok (Some (r2, {| f_held := f_held st; f_trailer := m; f_streams := f_streams st; f_left := f_left st |}))
  | TyStartXref =>
      do '(tk2, r2) <- read_token_skip d r;;
      match fst tk2 with
      | TyInt => do _ <- stoll (snd tk2);; Ok (Some (r2, st))
      | _ => Ok (Some (r, st))
      end
  | TyInt =>
      do '(tg, r2) <- read_token d r;;
      match fst tg with
      | TyInt =>
          do '(tb, r3) <- read_token d r2;;
          match fst tb with
          | TyObjBegin =>
              do n <- stoull (snd tk);;
              do gl <- stoull (snd tg);;
              do g <- to_u16 (Z.of_N gl);;
              do '(o, r4) <- parse_direct d opening_length r3;;
              let e := {| xnum := n; xgen := g; xdata := KUsed (Z.of_nat pos) true |} in
              do st2 <- note_stream n g o {| f_held := hold e o (f_held st); f_trailer := f_trailer st;
                                             f_streams := f_streams st; f_left := f_left st |};;
              do '(_, r5) <- read_token_skip d r4;;
              Ok (Some (r5, st2))
          | _ => do r4 <- pass_line r2 tb r3;; Ok (Some (r4, st))
          end
      | _ => do r3 <- pass_line r tg r2;; Ok (Some (r3, st))
      end
  | _ => do r2 <- pass_line s tk r;; Ok (Some (r2, st))
  end.

(** the loop; [total] is the size of the file *)
Fixpoint search_loop (fuel : nat) (total : nat) (s : bytes) (st : found) : res found :=
  match fuel with
  | O => NoFuel
  | S f =>
      do x <- search_round (total - List.length s) s st;;
      match x with
      | None => Ok st
      | Some (r, st2) => search_loop f total r st2
      end
  end.

(** Parser::FindAllObjects, parser.cpp:790-888; [left] is what the failed attempt to read the chain has left in the file *)
Definition find_all_objects (left : chain) (file : bytes) : res found :=
  search_loop (S (List.length file)) (List.length file) file {| f_held := []; f_trailer := []; f_streams := []; f_left := left |}.
Definition rebuilt_chain (st : found) : chain :=
  f_streams st ++ [{| s_kind := STable; s_entries := map fst (f_held st); s_hybrid := None; s_trailer := f_trailer st |}].

(** file.cpp:146-157: which exceptions lead to the search.  Exceptions of the standard library are not derived from ExceptionBase
    (utils/exceptions.h:13), NotSupportedException is passed on. *)
Definition recoverable (e : exn) : bool :=
  match e with
  | EStdInvalid | EStdRange | ENotSupported | ENotModelled => false
  | _ => true
  end.

(** How the chain of an opened file came about: the sections, and the objects that are already loaded *)
Inductive opened : Type :=
| ByTable (c : chain)
| BySearch (st : found).

(** File::Initialize, file.cpp:123-157.  Simplification: the sections that the failed attempt had read are an argument; the encryption
    dictionary and signatures (162-173) are not modelled. *)
Definition initialize (fuel : nat) (left : chain) (file : bytes) : res (version * opened) :=
  do v <- read_header file;;
  match (do offset <- last_xref_offset file;; read_chain d decode fuel file offset) with
  | Ok c => Ok (v, ByTable c)
  | Throw e => if recoverable e then do st <- find_all_objects left file;; Ok (v, BySearch st) else Throw e
  | Undef => Undef
  | NoFuel => NoFuel
  end.
Definition opened_chain (x : opened) : chain :=
  match x with ByTable c => c | BySearch st => rebuilt_chain st end.
End Search.

(** Content streams: contents/content_stream_parser.cpp, content_stream_operations.cpp, content_stream_operation_generic.cpp and
    content_stream_objects.cpp. *)
From Coq Require Import List NArith ZArith Bool String.
From Coq Require Import List.
From Verif.Model Require Import Base Char Numbers SMap Object Token Parser.
Import ListNotations.
Local Open Scope N_scope.

(** The words of the content stream dictionary, token_dictionary.cpp:59-132 and 224-305. *)
Definition content_words : list bytes := map str
  ["w"; "J"; "j"; "M"; "d"; "ri"; "i"; "gs"; "q"; "Q"; "cm"; "m"; "l"; "c"; "v"; "y"; "h"; "re"; "S"; "s"; "f"; "F"; "f*"; "B"; "B*";
   "b"; "b*"; "n"; "W"; "W*"; "BT"; "ET"; "Tc"; "Tw"; "Tz"; "TL"; "Tf"; "Tr"; "Ts"; "Td"; "TD"; "Tm"; "T*"; "Tj"; "TJ"; "'"; """";
   "d0"; "d1"; "CS"; "cs"; "SC"; "SCN"; "sc"; "scn"; "G"; "g"; "RG"; "rg"; "K"; "k"; "sh"; "BI"; "ID"; "EI"; "Do"; "MP"; "DP";
   "BMC"; "BDC"; "EMC"; "BX"; "EX"]%string.
Definition content_dictionary : dictionary := fun w =>
  if existsb (bytes_eqb w) content_words then TyKw w else parser_dictionary w.

(** Operations, content_stream_operations.h and content_stream_operation_generic.h.  The operators of content_stream_operators.h print
    the word they were read from, so an operator is its word. *)
Inductive op : Set :=
| OpGeneric (operands : list obj) (word : list N)
| OpBeginText
| OpEndText
| OpTextFont (font scale : obj)
| OpTextShow (text : obj)
| OpTextShowArray (items : obj)
| OpBeginImage
| OpImageData
| OpEndImage.

(** Instructions, content_stream_instruction_base.h and content_stream_objects.h *)
Inductive instr : Set :=
| IOp (o : op)
| IText (l : list op)
| IImage (entries : list (list N * obj)) (data : list N).

Notation rts := (read_token_skip content_dictionary).

(** ContentStreamParser::ReadDirectObject, content_stream_parser.cpp:396-434: no references and no stream bodies.  ReadArray (parser.cpp
    257-275) and ReadDictionary (79-128) call it back. *)
Fixpoint c_obj (fuel : nat) (s : bytes) : res (obj * bytes) :=
  match fuel with
  | O => NoFuel
  | S f =>
      do '(tk, rest) <- rts s;;
      match fst tk with
      | TyDictBegin => do '(l, r) <- c_dict f rest [];; Ok (ODict l, r)
      | TyInt => do z <- stoll (snd tk);; Ok (OInt z, rest)
      | TyArrayBegin => do '(l, r) <- c_array f rest;; Ok (OArr l, r)
      | TyName => Ok (OName (snd tk), rest)
      | TyHex => do v <- hex_decode (snd tk);; Ok (OHex v, rest)
      | TyLit => do v <- literal_decode (snd tk);; Ok (OLit v, rest)
      | TyReal => do o <- create_real (snd tk);; Ok (o, rest)
      | TyTrue => Ok (OBool true, rest)
      | TyFalse => Ok (OBool false, rest)
      | TyNull => Ok (ONull, rest)
      | _ => Throw EParse
      end
  end
with c_array (fuel : nat) (s : bytes) : res (list obj * bytes) :=
  match fuel with
  | O => NoFuel
  | S f =>
      do '(tk, rest) <- rts s;;
      if ttype_eqb (fst tk) TyArrayEnd then Ok ([], rest)
      else
        do '(o, r1) <- c_obj f s;;
        do '(l, r2) <- c_array f r1;;
        Ok (o :: l, r2)
  end
with c_dict (fuel : nat) (s : bytes) (acc : list (bytes * obj)) : res (list (bytes * obj) * bytes) :=
  match fuel with
  | O => NoFuel
  | S f =>
      do '(tk, rest) <- rts s;;
      if ttype_eqb (fst tk) TyDictEnd then Ok (acc, rest)
      else
        do '(k, r1) <- c_obj f s;;
        do '(v, r2) <- c_obj f r1;;
        match v, k with
        | ONull, _ => c_dict f r2 acc
        | _, OName n => if sm_contains n acc then c_dict f r2 acc else c_dict f r2 (sm_insert n v acc)
        | _, _ => c_dict f r2 acc
        end
  end.
(** a bound that is never reached, Proof/ContentEnds.v (direct_total) *)
Definition c_direct (s : bytes) : res (obj * bytes) := c_obj (2 * List.length s + 2) s.

(** ContentStreamParser::IsOperand, content_stream_parser.cpp:378-394 *)
Definition is_operand (t : ttype) : bool :=
  match t with
  | TyDictBegin | TyInt | TyArrayBegin | TyName | TyHex | TyLit | TyReal | TyTrue | TyFalse | TyNull => true
  | _ => false
  end.

(** ContentStreamParser::ReadOperation, content_stream_parser.cpp:199-220: the operands *)
Fixpoint read_operands (fuel : nat) (s : bytes) : res (list obj * bytes) :=
  match fuel with
  | O => NoFuel
  | S f =>
      do ty <- peek_type_skip content_dictionary s;;
      if is_operand ty then
        do '(o, r1) <- c_direct s;;
        do '(l, r2) <- read_operands f r1;;
        Ok (o :: l, r2)
      else Ok ([], s)
  end.

(** ContentStreamParser::ReadOperatorReturnOperation, content_stream_parser.cpp:222-376, with the constructors of
    content_stream_operations.cpp:15-27, 98-121 and 144-end that check their operands.  A scale is a number: an integer is accepted as a
    real and printed as it was (C06).  Simplification: the kind of exception for an operand of a wrong type is always EGeneral. *)
Definition no_operands (l : list obj) (o : op) : res op := match l with [] => Ok o | _ => Throw EGeneral end.
Definition make_op (l : list obj) (tk : token) : res op :=
  match fst tk with
  | TyKw w =>
      if bytes_eqb w (str "BT") then no_operands l OpBeginText
      else if bytes_eqb w (str "ET") then no_operands l OpEndText
      else if bytes_eqb w (str "BI") then no_operands l OpBeginImage
      else if bytes_eqb w (str "ID") then no_operands l OpImageData
      else if bytes_eqb w (str "EI") then no_operands l OpEndImage
      else if bytes_eqb w (str "Tf") then
        match l with
        | [OName n; OReal g m p] => Ok (OpTextFont (OName n) (OReal g m p))
        | [OName n; OInt z] => Ok (OpTextFont (OName n) (OInt z))
        | _ => Throw EGeneral
        end
      else if bytes_eqb w (str "Tj") then
        match l with
        | [OLit v] => Ok (OpTextShow (OLit v))
        | [OHex v] => Ok (OpTextShow (OHex v))
        | _ => Throw EGeneral
        end
      else if bytes_eqb w (str "TJ") then
        match l with
        | [OArr a] => Ok (OpTextShowArray (OArr a))
        | _ => Throw EGeneral
        end
      else Ok (OpGeneric l w)
  | _ => Ok (OpGeneric l (snd tk))
  end.
Definition read_operation (s : bytes) : res (op * bytes) :=
  do '(l, r) <- read_operands (S (List.length s)) s;;
  do '(tk, r1) <- rts r;;
  do o <- make_op l tk;;
  Ok (o, r1).

(** ContentStreamParser::ReadInlineImageObject, content_stream_parser.cpp:52-77: the image dictionary.  With asserts compiled out a token
    that is neither a name nor ID is looked at again and again. *)
Fixpoint read_image_dict (fuel : nat) (s : bytes) (acc : list (bytes * obj)) : res (list (bytes * obj) * bytes) :=
  match fuel with
  | O => NoFuel
  | S f =>
      do ty <- peek_type_skip content_dictionary s;;
      match ty with
      | TyName =>
          do '(k, r1) <- expect_skip content_dictionary TyName s;;
          do '(v, r2) <- c_direct r1;;
          match v with
          | ONull => read_image_dict f r2 acc
          | _ => if sm_contains k acc then Throw EDuplicateKey else read_image_dict f r2 (sm_insert k v acc)
          end
      | TyKw w => if bytes_eqb w (str "ID") then Ok (acc, s) else read_image_dict f s acc
      | _ => read_image_dict f s acc
      end
  end.

(** content_stream_parser.cpp:85-154: the image data, byte by byte; [stage] and [ws] (stored_whitespace) are the variables of the code.
    At the end of the input Get returns -1, which does not convert to unsigned char. *)
Fixpoint read_image_data (stage : N) (ws : N) (s : bytes) : res (bytes * bytes) :=
  match s with
  | [] => Throw EConversion
  | c :: t =>
      if (stage =? 0) && is_white c then read_image_data 1 c t
      else if stage =? 1 then
        if c =? 69 then read_image_data 2 ws t
        else if is_white c then do '(l, r) <- read_image_data 1 c t;; Ok (ws :: l, r)
        else do '(l, r) <- read_image_data 0 ws t;; Ok (ws :: c :: l, r)
      else if stage =? 2 then
        if c =? 73 then read_image_data 3 ws t
        else do '(l, r) <- read_image_data 0 ws t;; Ok (ws :: 69 :: c :: l, r)
      else if stage =? 3 then
        if is_white c then Ok ([], t)
        else do '(l, r) <- read_image_data 0 ws t;; Ok (ws :: 69 :: 73 :: c :: l, r)
      else do '(l, r) <- read_image_data 0 ws t;; Ok (c :: l, r)
  end.

(** ContentStreamParser::ReadInlineImageObject, content_stream_parser.cpp:48-156 *)
Definition read_image (fuel : nat) (s : bytes) : res (instr * bytes) :=
  do '(m, r1) <- read_image_dict fuel s [];;
  do '(_, r2) <- read_operation r1;;
  do '(l, r3) <- read_image_data 0 0 r2;;
  Ok (IImage m l, r3).

(** ContentStreamParser::ReadInstruction, content_stream_parser.cpp:158-197: the operations of a text object *)
Fixpoint read_text (fuel : nat) (s : bytes) : res (list op * bytes) :=
  match fuel with
  | O => NoFuel
  | S f =>
      do ty <- peek_type_skip content_dictionary s;;
      if ttype_eqb ty TyEof then Ok ([], s)
      else
        do '(o, r1) <- read_operation s;;
        match o with
        | OpEndText => Ok ([], r1)
        | _ => do '(l, r2) <- read_text f r1;; Ok (o :: l, r2)
        end
  end.
Definition read_instruction (fuel : nat) (s : bytes) : res (instr * bytes) :=
  do '(o, r) <- read_operation s;;
  match o with
  | OpBeginImage => read_image fuel r
  | OpBeginText => do '(l, r1) <- read_text fuel r;; Ok (IText l, r1)
  | _ => Ok (IOp o, r)
  end.

(** ContentStreamParser::ReadInstructions, content_stream_parser.cpp:26-46 *)
Fixpoint read_instructions (fuel : nat) (s : bytes) : res (list instr) :=
  match fuel with
  | O => NoFuel
  | S f =>
      do ty <- peek_type_skip content_dictionary s;;
      if ttype_eqb ty TyEof then Ok []
      else
        do '(i, r) <- read_instruction f s;;
        do l <- read_instructions f r;;
        Ok (i :: l)
  end.
(** with a bound that is reached only in the endless loop of [read_image_dict], C43_bound *)
Definition parse_content (s : bytes) : res (list instr) := read_instructions (List.length s + 2) s.

(** ToPdf: OperationGeneric content_stream_operation_generic.cpp:30-50, the other operations content_stream_operations.h,
    TextObject and InlineImageObject content_stream_objects.cpp:15-57 *)
Definition op_text (o : op) : bytes :=
  match o with
  | OpGeneric l w => match l with [] => w | _ => join_sp (map to_pdf l) ++ [32] ++ w end
  | OpBeginText => str "BT"
  | OpEndText => str "ET"
  | OpTextFont n z => to_pdf n ++ [32] ++ to_pdf z ++ [32] ++ str "Tf"
  | OpTextShow t => to_pdf t ++ [32] ++ str "Tj"
  | OpTextShowArray a => to_pdf a ++ [32] ++ str "TJ"
  | OpBeginImage => str "BI"
  | OpImageData => str "ID"
  | OpEndImage => str "EI"
  end.
Definition instr_text (i : instr) : bytes :=
  match i with
  | IOp o => op_text o
  | IText l => str "BT" ++ [10] ++ concat (map (fun o => op_text o ++ [10]) l) ++ str "ET"
  | IImage m data =>
      str "BI" ++ [10] ++ concat (map (fun e => (47 :: name_to_string (fst e)) ++ [32] ++ to_pdf (snd e) ++ [10]) m)
        ++ str "ID" ++ [10] ++ data ++ [10] ++ str "EI"
  end.
(** the body of a page, page_contents.cpp:62-65: every instruction on a line *)
Definition write_content (l : list instr) : bytes := concat (map (fun i => instr_text i ++ [10]) l).

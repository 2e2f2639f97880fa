(** The last lines of a file: file_writer.cpp:1259-1269, syntax/parsers/reverse_tokenizer.cpp, reverse_parser.cpp, file.cpp:760-791. *)
From Coq Require Import List NArith ZArith Bool String.
From Verif.Model Require Import Base Char Numbers Token.
Import ListNotations.
Local Open Scope N_scope.

(** FileWriter::WriteXrefOffset, file_writer.cpp:1259-1269 *)
Definition write_xref_offset (offset : Z) : bytes :=
  str "startxref" ++ [10] ++ to_string_Z offset ++ [10] ++ str "%%EOF" ++ [10].

(** Tokens of the reverse tokenizer *)
Inductive rtoken : Set :=
| RtEof
| RtEol
| RtInt (v : bytes)
| RtEofMarker
| RtStartXref
| RtUnknown.

(** ReverseTokenizer::ReadUnknown, reverse_tokenizer.cpp:70-110, with the dictionary of token_dictionary.cpp:28-29, 179-188 *)
Definition is_sign (c : N) : bool := (c =? 43) || (c =? 45).
Definition rev_unknown (c : N) (t : bytes) : rtoken * bytes :=
  if is_numeric c then
    let '(ds, r1) := span is_numeric t in
    let '(sg, r2) := span is_sign r1 in
    (RtInt (c :: ds ++ sg), r2)
  else
    let '(w, r) := span (fun x => negb (is_white x)) t in
    let word := c :: w in
    (if bytes_eqb word (str "FOE%%") then RtEofMarker
     else if bytes_eqb word (str "ferxtrats") then RtStartXref else RtUnknown, r).

(** ReverseTokenizer::ReadToken, reverse_tokenizer.cpp:21-68 (no token is ever peeked by the reverse parser) *)
Fixpoint rev_token (s : bytes) : rtoken * bytes :=
  match s with
  | [] => (RtEof, [])
  | c :: t =>
      if c =? 10 then (RtEol, match t with 13 :: t' => t' | _ => t end)
      else if (c =? 32) || (c =? 12) || (c =? 9) || (c =? 0) then rev_token t
      else if c =? 13 then (RtEol, t)
      else rev_unknown c t
  end.

(** ReverseParser::ReadTokenWithTypeSkip, reverse_parser.cpp:25-48: the first token that is not an end of line *)
Fixpoint rev_token_skip (fuel : nat) (s : bytes) : res (rtoken * bytes) :=
  match fuel with
  | O => NoFuel
  | S f => match rev_token s with
           | (RtEol, r) => rev_token_skip f r
           | (tk, r) => Ok (tk, r)
           end
  end.

(** ReverseParser::ReadLastXrefOffset, reverse_parser.cpp:14-23 *)
Definition read_last_xref_offset (s : bytes) : res Z :=
  let fuel := S (List.length s) in
  do '(t1, r1) <- rev_token_skip fuel s;;
  match t1 with
  | RtEofMarker =>
      do '(t2, r2) <- rev_token_skip fuel r1;;
      match t2 with
      | RtInt v =>
          do '(t3, _) <- rev_token_skip fuel r2;;
          match t3 with
          | RtStartXref => stoll (rev v)
          | _ => Throw EGeneral
          end
      | _ => Throw EGeneral
      end
  | _ => Throw EGeneral
  end.

(** File::GetLastXrefOffset, file.cpp:760-791: the last 16 kilobytes, reversed *)
Definition trailer_window : nat := N.to_nat 16384.
Definition last_xref_offset (file : bytes) : res Z :=
  let to_read := if (List.length file <? trailer_window)%nat then List.length file else trailer_window in
  read_last_xref_offset (rev (skipn (List.length file - to_read) file)).

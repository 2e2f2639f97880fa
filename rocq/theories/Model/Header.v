(** The file header: file_writer.cpp:1271-1316 (WriteHeader), parser.cpp:737-788 (ReadHeader); Readline is in Model/Lines.v. *)
From Coq Require Import List NArith ZArith Bool String.
From Verif.Model Require Import Base Char Numbers Lines.
Import ListNotations.
Local Open Scope N_scope.

(** syntax/files/header.h, enum class Version *)
Inductive version : Set := PDF10 | PDF11 | PDF12 | PDF13 | PDF14 | PDF15 | PDF16 | PDF17 | PDF20.

(** FileWriter::WriteHeader, file_writer.cpp:1271-1316 (the default case of the switch cannot be built with the enumeration) *)
Definition version_text (v : version) : bytes :=
  match v with
  | PDF10 => str "1.0" | PDF11 => str "1.1" | PDF12 => str "1.2" | PDF13 => str "1.3" | PDF14 => str "1.4"
  | PDF15 => str "1.5" | PDF16 => str "1.6" | PDF17 => str "1.7" | PDF20 => str "2.0"
  end.
Definition write_header (v : version) : bytes :=
  str "%PDF-" ++ version_text v ++ [10] ++ [37; 222; 173; 192; 222] ++ [10].

(** std::regex_match(line, "%PDF-([0-9])\\.([0-9]).*"): the two digits.  The line has no line terminator, so ".*" matches any rest.
    Simplification: the recursion depth of the regular expression engine on very long lines is not modelled. *)
Definition match_header (l : bytes) : option (N * N) :=
  match l with
  | 37 :: 80 :: 68 :: 70 :: 45 :: a :: 46 :: b :: _ => if is_numeric a && is_numeric b then Some (a - 48, b - 48) else None
  | _ => None
  end.

(** parser.cpp:749-784: [None] continues with the next line *)
Definition header_version (ab : N * N) : option (res version) :=
  let '(a, b) := ab in
  if a =? 1 then
    Some (if b =? 0 then Ok PDF10 else if b =? 1 then Ok PDF11 else if b =? 2 then Ok PDF12 else if b =? 3 then Ok PDF13
          else if b =? 4 then Ok PDF14 else if b =? 5 then Ok PDF15 else if b =? 6 then Ok PDF16 else if b =? 7 then Ok PDF17
          else Throw ENotSupported)
  else if a =? 2 then Some (if b =? 0 then Ok PDF20 else Throw ENotSupported)
  else None.

(** Parser::ReadHeader, parser.cpp:742-788: loop over the lines while not at the end *)
Fixpoint read_header_fuel (fuel : nat) (s : bytes) : res version :=
  match fuel with
  | O => NoFuel
  | S f =>
      let '(l, r, eof) := readline s in
      let next := if eof then Throw EGeneral else read_header_fuel f r in
      match match_header l with
      | Some ab => match header_version ab with Some v => v | None => next end
      | None => next
      end
  end.
Definition read_header (s : bytes) : res version := read_header_fuel (S (List.length s)) s.

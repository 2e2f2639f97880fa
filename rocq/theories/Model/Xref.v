(** Cross-reference sections: syntax/files/xref.cpp, xref_entry.h, the xref functions of syntax/files/file_writer.cpp and of
    syntax/parsers/parser.cpp. *)
From Coq Require Import List NArith ZArith Bool String.
From Verif.Model Require Import Base Char Numbers SMap Object Token Parser Arith.
Import ListNotations.
Local Open Scope N_scope.

(** Cross-reference entries, xref_entry.h:11-205.
    - [KFree next]: XrefFreeEntry with its next free object number.
    - [KUsed offset in_use]: XrefUsedEntry; [in_use] is InUse() (xref_entry.cpp:41-44 m_used), false after ReleaseReference.
      Simplification: an entry that was read from a file and not loaded yet counts as in use, its InUse() is asked after the
      reference was loaded.
    - [KComp stream index]: XrefCompressedEntry. *)
Inductive xkind : Set :=
| KFree (next : N)
| KUsed (offset : Z) (in_use : bool)
| KComp (stream index : N).
Record xentry : Set := { xnum : N; xgen : N; xdata : xkind }.

(** XrefBase::Add, xref.cpp:245-271 with Entries, 316-330: the entries of a section in the order of their numbers; an entry with
    the same number is replaced. *)
Fixpoint xadd (e : xentry) (t : list xentry) : list xentry :=
  match t with
  | [] => [e]
  | x :: r =>
      if xnum e <? xnum x then e :: t
      else if xnum e =? xnum x then e :: r
      else x :: xadd e r
  end.

(** XrefTable::Add, xref.cpp:231-243 *)
Definition table_add (e : xentry) (t : list xentry) : res (list xentry) :=
  match xdata e with
  | KComp _ _ => Throw EGeneral
  | _ => Ok (xadd e t)
  end.

(** SafeAddition<big_uint>(big_uint, size_type) and SafeAddition<big_uint, big_uint, int> *)
Definition add_u64 (a b : N) : res N :=
  do z <- safe_addition uint64_t uint64_t uint64_t (Z.of_N a) (Z.of_N b);; Ok (Z.to_N z).
Definition add_u64_int (a : N) (b : Z) : res N :=
  do z <- safe_addition uint64_t uint64_t int32_t (Z.of_N a) b;; Ok (Z.to_N z).

(** ** Writing a table *)

(** fmt::format("{:010}", v), file_writer.cpp:1503-1513: zero padded, the sign counts *)
Definition fmt_0 (w : nat) (z : Z) : bytes :=
  if (z <? 0)%Z then 45 :: pad_zero (w - 1) (to_string_N (Z.to_N (- z))) else pad_zero w (to_string_N (Z.to_N z)).

(** one row, file_writer.cpp:1449-1486; an entry that is neither free nor used, and a released entry, has no row *)
Definition table_row (e : xentry) : bytes :=
  match xdata e with
  | KFree next => fmt_0 10 (Z.of_N next) ++ [32] ++ fmt_0 5 (Z.of_N (xgen e)) ++ [32] ++ [102] ++ [32] ++ [10]
  | KUsed offset true => fmt_0 10 offset ++ [32] ++ fmt_0 5 (Z.of_N (xgen e)) ++ [32] ++ [110] ++ [32] ++ [10]
  | KUsed _ false => []
  | KComp _ _ => []
  end.

(** number of entries of the run that starts with number [idx], file_writer.cpp:1434-1440; [j] entries found so far *)
Fixpoint run_length (idx j : N) (l : list xentry) : res N :=
  match l with
  | [] => Ok j
  | e :: t =>
      do expected <- add_u64 idx j;;
      if xnum e =? expected then run_length idx (j + 1) t else Ok j
  end.

(** loop over the subsections, file_writer.cpp:1430-1489 *)
Fixpoint write_subsections (fuel : nat) (l : list xentry) : res bytes :=
  match l with
  | [] => Ok []
  | first :: t =>
      match fuel with
      | O => NoFuel
      | S f =>
          do n <- run_length (xnum first) 1 t;;
          do r <- write_subsections f (skipn (N.to_nat n) l);;
          Ok (to_string_N (xnum first) ++ [32] ++ to_string_N n ++ [10] ++ flat_map table_row (firstn (N.to_nat n) l) ++ r)
      end
  end.

(** FileWriter::WriteXrefTable, file_writer.cpp:1419-1501 (offset bookkeeping: see Model/FileWrite.v) *)
Definition write_xref_table (t : list xentry) (trailer : obj) : res bytes :=
  do subs <- write_subsections (List.length t) t;;
  Ok (str "xref" ++ [10] ++ subs ++ str "trailer" ++ [10] ++ to_pdf trailer ++ [10]).

(** ** Reading a table *)

(** std::stoull: a minus sign negates modulo 2^64 *)
Definition stoull (s : bytes) : res N :=
  match strtol 10 s with
  | None => Throw EStdInvalid
  | Some v => if (Z.abs v <=? 2 ^ 64 - 1)%Z then Ok (Z.to_N (v mod 2 ^ 64)) else Throw EStdRange
  end.

Section Reader.
Variable d : dictionary.
Variable resolve_length : N -> N -> res Z.

(** Parser::ReadTableEntry, parser.cpp:484-518; MAX_GENERATION_NUMBER is 65535 *)
Definition read_table_entry (num : N) (s : bytes) : res (xentry * bytes) :=
  do '(ov, r1) <- expect_skip d TyInt s;;
  do '(gv, r2) <- expect_skip d TyInt r1;;
  do offset <- stoll ov;;
  do gen0 <- stoll gv;;
  let gen := if (65535 <? gen0)%Z then 65535%Z else gen0 in
  do '(tk, r3) <- read_token_skip d r2;;
  if bytes_eqb (snd tk) (str "n") then
    do g <- to_u16 gen;;
    Ok ({| xnum := num; xgen := g; xdata := KUsed offset true |}, r3)
  else if bytes_eqb (snd tk) (str "f") then
    do g <- to_u16 gen;;
    Ok ({| xnum := num; xgen := g; xdata := KFree 0 |}, r3)
  else Throw EParse.

(** the rows of a subsection, parser.cpp:531-534 *)
Fixpoint read_rows (fuel : nat) (base i size : N) (s : bytes) (t : list xentry) : res (list xentry * bytes) :=
  if size <=? i then Ok (t, s)
  else
    match fuel with
    | O => NoFuel
    | S f =>
        do num <- add_u64 base i;;
        do '(e, r) <- read_table_entry num s;;
        do t' <- table_add e t;;
        read_rows f base (i + 1) size r t'
    end.

(** the subsections, parser.cpp:524-535 *)
Fixpoint read_subsections (fuel : nat) (s : bytes) (t : list xentry) : res (list xentry * bytes) :=
  match fuel with
  | O => NoFuel
  | S f =>
      do ty <- peek_type_skip d s;;
      if ttype_eqb ty TyTrailer then Ok (t, s)
      else
        do '(bv, r1) <- expect_skip d TyInt s;;
        do '(sv, r2) <- expect_skip d TyInt r1;;
        do base <- stoull bv;;
        do size <- stoull sv;;
        do '(t', r3) <- read_rows (S (List.length r2)) base 0 size r2 t;;
        read_subsections f r3 t'
  end.

(** Parser::ReadXrefTable, parser.cpp:520-545: entries, trailer dictionary, rest of the input *)
Definition read_xref_table (s : bytes) : res (list xentry * obj * bytes) :=
  do '(_, r1) <- expect_skip d TyXref s;;
  do '(t, r2) <- read_subsections (S (List.length r1)) r1 [];;
  do '(_, r3) <- expect_skip d TyTrailer r2;;
  do '(o, r4) <- parse_direct d resolve_length r3;;
  match o with
  | ODict _ => Ok (t, o, r4)
  | _ => Throw EConversion
  end.
End Reader.

(** ** Cross-reference streams *)

(** Widths: the three integers of /W.  Simplification: the integer objects are taken as their value; the ones the writer creates
    hold an unsigned, the ones read a signed value, and both convert without loss in the ranges that occur. *)
Definition widths : Set := (Z * Z * Z)%type.

(** the numbers of an entry in fields 2 and 3, as the arguments of MostSignificantBit and of WriteValue (big_uint), xref.cpp:66-108
    and 145-173.  A negative offset: MostSignificantBit stops at once for a negative number (math_utils.h:76-85), WriteValue takes it
    modulo 2^64. *)
Definition entry_type (e : xentry) : N := match xdata e with KFree _ => 0 | KUsed _ _ => 1 | KComp _ _ => 2 end.
Definition msb_args (e : xentry) : N * N :=
  match xdata e with
  | KFree next => (next, xgen e)
  | KUsed offset _ => (Z.to_N offset, xgen e)
  | KComp stream index => (stream, index)
  end.
Definition field_values (e : xentry) : N * N :=
  match xdata e with
  | KFree next => (next, xgen e)
  | KUsed offset _ => (Z.to_N (wrap uint64_t offset), xgen e)
  | KComp stream index => (stream, index)
  end.

(** xref.cpp:70-71, 84-85, 98-99 *)
Definition bytes_needed (v : N) : res N := do m <- most_significant_bit v;; Ok (m / 8 + 1).

(** maxima over all entries, xref.cpp:62-109 *)
Fixpoint max_bytes (l : list xentry) (m2 m3 : N) : res (N * N) :=
  match l with
  | [] => Ok (m2, m3)
  | e :: t =>
      let '(a, b) := msb_args e in
      do b2 <- bytes_needed a;;
      do b3 <- bytes_needed b;;
      max_bytes t (if m2 <? b2 then b2 else m2) (if m3 <? b3 then b3 else m3)
  end.

(** xref.cpp:111-117: a width is raised when it is too small; GetUnsignedIntegerValue throws for a negative one *)
Definition raise_width (m : N) (w : Z) : res Z :=
  do u <- to_u64 w;; Ok (if u <? m then Z.of_N m else w).

(** XrefStream::WriteValue, xref.cpp:205-229: the value must vanish when shifted by the width; then [width] bytes, most
    significant first.  A shift by 64 bits or more is undefined.  A negative width shifts the bitset by a huge amount and writes
    nothing. *)
Fixpoint be_bytes (n : nat) (v : N) : bytes :=
  match n with
  | O => []
  | S k => (v / 256 ^ N.of_nat k) mod 256 :: be_bytes k v
  end.
Definition write_value (v : N) (width : Z) : res bytes :=
  if (width <? 0)%Z then Ok []
  else if (width <? 8)%Z && negb (v / 256 ^ Z.to_N width =? 0) then Throw EGeneral
  else if (8 <? width)%Z then Undef
  else Ok (be_bytes (Z.to_nat width) v).

(** one row of the stream data, xref.cpp:145-173 *)
Definition stream_row (w : widths) (e : xentry) : res bytes :=
  let '(w1, w2, w3) := w in
  let '(f2, f3) := field_values e in
  do a <- write_value (entry_type e) w1;;
  do b <- write_value f2 w2;;
  do c <- write_value f3 w3;;
  Ok (a ++ b ++ c).

(** the loop over the entries, xref.cpp:119-182: /Index array and stream data *)
Fixpoint stream_rows (w : widths) (l : list xentry) (section_index section_size prev : N) : res (list N * bytes) :=
  match l with
  | [] => Ok ([section_index; section_size], [])
  | e :: t =>
      do '(closed, idx, size) <-
        (if section_size =? 0 then Ok ([], section_index, section_size)
         else
           do next <- add_u64 prev 1;;
           if xnum e =? next then Ok ([], section_index, section_size)
           else Ok ([section_index; section_size], xnum e, 0));;
      do row <- stream_row w e;;
      do '(index, data) <- stream_rows w t idx (size + 1) (xnum e);;
      Ok (closed ++ index, row ++ data)
  end.

(** XrefStream::RecalculateContent, xref.cpp:37-203, for a changed stream: the new /W, /Index and stream data *)
Definition recalculate_content (w : widths) (l : list xentry) : res (widths * list N * bytes) :=
  let '(w1, w2, w3) := w in
  do '(m2, m3) <- max_bytes l 0 0;;
  do w2' <- raise_width m2 w2;;
  do w3' <- raise_width m3 w3;;
  do '(index, data) <- stream_rows (w1, w2', w3') l 0 0 0;;
  Ok ((w1, w2', w3'), index, data).

(** FileWriter::RecalculateXrefStreamWidth, file_writer.cpp:555-624: called before RecalculateContent for xref streams *)
Definition width_for (m : N) : res Z :=
  do b <- most_significant_bit m;; Ok (Z.of_N (if b mod 8 =? 0 then b / 8 else b / 8 + 1)).
Definition recalculate_widths (l : list xentry) : res widths :=
  let f1 := fold_left (fun m (e : xentry) => N.max m 1) l 0 in
  let f2 := fold_left (fun m e => N.max m (fst (field_values e))) l 0 in
  let f3 := fold_left (fun m e => N.max m (snd (field_values e))) l 0 in
  do w1 <- width_for f1;;
  do w2 <- width_for f2;;
  do w3 <- width_for f3;;
  Ok (w1, w2, w3).

(** one field, parser.cpp:592-614: big-endian accumulation in an IntegerObject (64-bit signed; the shift and the addition wrap).
    Reading beyond the end of the data is undefined. *)
Fixpoint read_field (n : nat) (acc : Z) (s : bytes) : res (Z * bytes) :=
  match n with
  | O => Ok (acc, s)
  | S k =>
      match s with
      | [] => Undef
      | b :: t => read_field k (wrap int64_t (wrap int64_t (acc * 256) + Z.of_N b)) t
      end
  end.

(** one entry, parser.cpp:590-655 (the reference of the stream to itself is not modelled) *)
Definition read_stream_entry (w : widths) (subsection_index idx : Z) (s : bytes) : res (xentry * bytes) :=
  let '(w1, w2, w3) := w in
  do '(f1, r1) <- read_field (Z.to_nat w1) 0 s;;
  do '(f2, r2) <- read_field (Z.to_nat w2) 0 r1;;
  do '(f3, r3) <- read_field (Z.to_nat w3) 0 r2;;
  do num <- add_u64_int (Z.to_N (wrap uint64_t subsection_index)) idx;;
  if (f1 =? 0)%Z then
    do g <- to_u16 f3;;
    Ok ({| xnum := num; xgen := g; xdata := KFree (Z.to_N (wrap uint64_t f2)) |}, r3)
  else if (f1 =? 1)%Z then
    do g <- to_u16 f3;;
    Ok ({| xnum := num; xgen := g; xdata := KUsed f2 true |}, r3)
  else if (f1 =? 2)%Z then
    do i <- to_u64 f3;;
    Ok ({| xnum := num; xgen := 0; xdata := KComp (Z.to_N (wrap uint64_t f2)) i |}, r3)
  else Throw EGeneral.

(** a subsection, parser.cpp:585-656: [n] more entries, the next one has index [idx] (an int, its overflow is undefined) *)
Fixpoint read_stream_rows (w : widths) (first : Z) (n : nat) (idx : Z) (s : bytes) (t : list xentry) : res (list xentry * bytes) :=
  match n with
  | O => Ok (t, s)
  | S k =>
      do '(e, r) <- read_stream_entry w first idx s;;
      if (int32_max <=? idx)%Z then Undef
      else read_stream_rows w first k (idx + 1)%Z r (xadd e t)
  end.

(** all subsections of /Index; an odd number of integers makes GetValue throw (array_object.h, out of range) *)
Fixpoint read_stream_index (w : widths) (index : list Z) (s : bytes) (t : list xentry) : res (list xentry) :=
  match index with
  | [] => Ok t
  | [_] => Throw EGeneral
  | first :: size :: more =>
      do '(t', r) <- read_stream_rows w first (Z.to_nat size) 0 s t;;
      read_stream_index w more r t'
  end.

(** Parser::ParseXrefStream, parser.cpp:547-661 and 702-705, from the integers of /W, /Index and /Size and the decoded data *)
Definition parse_xref_stream (w : list Z) (index : option (list Z)) (size : Z) (data : bytes) : res (list xentry) :=
  match w with
  | [w1; w2; w3] => read_stream_index (w1, w2, w3) (match index with Some l => l | None => [0%Z; size] end) data []
  | _ => Throw EGeneral
  end.

(** FileWriter::RecalculateXrefSize, file_writer.cpp:626-674, section without hybrid stream: the value written as /Size *)
Definition recalculate_size (l : list xentry) : N := N.of_nat (List.length l).

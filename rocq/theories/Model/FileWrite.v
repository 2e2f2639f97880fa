(** Writing a file with one cross-reference section and opening it again: syntax/files/file_writer.cpp, syntax/files/file.cpp,
    syntax/parsers/parser.cpp. *)
From Coq Require Import List NArith ZArith Bool String.
From Verif.Model Require Import Base Char Numbers SMap Object Token Parser Arith Xref StartXref Header.
Import ListNotations.
Local Open Scope N_scope.

(** FileWriter::WriteObject, file_writer.cpp:1228-1257.  Simplification: the object's own number and generation are the ones of the
    entry that holds it (object.cpp: they are asked from that entry). *)
Definition write_object (num gen : N) (o : obj) : bytes :=
  to_string_N num ++ [32] ++ to_string_N gen ++ [32] ++ str "obj" ++ [10] ++ to_pdf o ++ [10] ++ str "endobj" ++ [10].

(** FileWriter::RecalculateStreamLength, file_writer.cpp:676-702, direct /Length: a missing or different length is replaced.
    A length that is not a number makes FindAs throw; a real, whose integer part counts (object_utils.h:80-101), is not modelled here, and a
    reference is modelled in Model/SharedLength.v. *)
Definition recalculate_length (o : obj) : res obj :=
  match o with
  | OStream m data =>
      let len := OInt (Z.of_nat (List.length data)) in
      match sm_find (str "Length") m with
      | None => Ok (OStream (sm_insert (str "Length") len m) data)
      | Some (OInt z) =>
          do u <- to_u64 z;;
          Ok (if u =? N.of_nat (List.length data) then o
              else OStream (sm_insert (str "Length") len (sm_remove (str "Length") m)) data)
      | Some (ORef _ _) | Some (OReal _ _ _) => Throw ENotModelled
      | Some _ => Throw EConversion
      end
  | _ => Ok o
  end.

(** FileWriter::RecalculateStreamsLength, file_writer.cpp:704-745 (7.5.7: no stream in an object stream).  Simplification: the order of
    the iteration does not matter; a released entry is treated like a used one. *)
Fixpoint recalculate_lengths (l : list (xentry * obj)) : res (list (xentry * obj)) :=
  match l with
  | [] => Ok []
  | (e, o) :: t =>
      do o' <- match xdata e with
               | KFree _ => Ok o
               | KUsed _ _ => recalculate_length o
               | KComp _ _ => if is_stream o then Throw EGeneral else Ok o
               end;;
      do t' <- recalculate_lengths t;;
      Ok ((e, o') :: t')
  end.

(** whether the entry is the one of the section's own cross-reference stream, file_writer.cpp:945-973 *)
Definition is_self (self : option (N * N)) (e : xentry) : bool :=
  match self with
  | Some (n, g) => (xnum e =? n) && (xgen e =? g)
  | None => false
  end.

(** FileWriter::WriteXrefObjects, file_writer.cpp:935-988, and WriteEntry, 1209-1226: objects in the order of their numbers, starting
    at output position [pos]; a used entry gets the position of its object (m_recalculate_offset on, the default). *)
Fixpoint write_objects (self : option (N * N)) (pos : N) (l : list (xentry * obj)) : bytes * list (xentry * obj) :=
  match l with
  | [] => ([], [])
  | (e, o) :: t =>
      let skip := let '(txt, t') := write_objects self pos t in (txt, (e, o) :: t') in
      let emit (e' : xentry) :=
        let b := write_object (xnum e) (xgen e) o in
        let '(txt, t') := write_objects self (pos + N.of_nat (List.length b)) t in (b ++ txt, (e', o) :: t') in
      if is_self self e then skip
      else
        match xdata e with
        | KFree _ => skip
        | KUsed _ false => skip
        | KUsed _ true => emit {| xnum := xnum e; xgen := xgen e; xdata := KUsed (Z.of_N pos) true |}
        | KComp _ _ => emit e
        end
  end.

(** FileWriter::RecalculateXrefSize, file_writer.cpp:666-673: /Size is created or its value replaced *)
Definition set_size (m : list (bytes * obj)) (n : N) : list (bytes * obj) :=
  sm_insert (str "Size") (OInt (Z.of_N n)) (sm_remove (str "Size") m).

(** FileWriter::Write, file_writer.cpp:34-86 with WriteXrefChain 1318-1352 and WriteXref 1354-1387 for a single section that is a
    table without hybrid stream.  Cloning and optimising the chain come before and are not part of this definition. *)
Definition write_table_file (v : version) (l : list (xentry * obj)) (trailer : list (bytes * obj)) : res bytes :=
  let hdr := write_header v in
  do l1 <- recalculate_lengths l;;
  let trailer' := set_size trailer (recalculate_size (map fst l1)) in
  let '(body, l2) := write_objects None (N.of_nat (List.length hdr)) l1 in
  do table <- write_xref_table (map fst l2) (ODict trailer');;
  Ok (hdr ++ body ++ [10] ++ table ++ write_xref_offset (Z.of_nat (List.length (hdr ++ body ++ [10])))).

(** the same for a section that is a cross-reference stream, file_writer.cpp:1389-1411: the data is recalculated before the stream
    object is written, so its own entry keeps the offset it had.  [stm] builds the stream object from widths, index and data. *)
Definition write_stream_file (v : version) (self : N * N) (stm : widths -> list N -> bytes -> obj)
    (l : list (xentry * obj)) : res (bytes * list (xentry * obj)) :=
  let hdr := write_header v in
  do l1 <- recalculate_lengths l;;
  let '(body, l2) := write_objects (Some self) (N.of_nat (List.length hdr)) l1 in
  do w <- recalculate_widths (map fst l2);;
  do '(w', index, data) <- recalculate_content w (map fst l2);;
  do stream <- recalculate_length (stm w' index data);;
  Ok (hdr ++ body ++ write_object (fst self) (snd self) stream ++ write_xref_offset (Z.of_nat (List.length (hdr ++ body))), l2).

Section Reader.
Variable d : dictionary.
Variable resolve_length : N -> N -> res Z.

(** Parser::ReadIndirectObject, parser.cpp:312-334: number, generation, object, rest of the input *)
Definition read_indirect_object (s : bytes) : res (N * N * obj * bytes) :=
  do '(nv, r1) <- expect_skip d TyInt s;;
  do '(gv, r2) <- expect_skip d TyInt r1;;
  do '(_, r3) <- expect_skip d TyObjBegin r2;;
  do '(o, r4) <- parse_direct d resolve_length r3;;
  do '(_, r5) <- expect_skip d TyObjEnd r4;;
  do nz <- stoll nv;;
  do gz <- stoll gv;;
  do n <- to_u64 nz;;
  do g <- to_u16 gz;;
  Ok (n, g, o, r5).

(** Parser::ReadXref, parser.cpp:715-721, when the section is a table (a stream is not modelled here) *)
Definition read_xref_at (file : bytes) (offset : Z) : res (list xentry * obj) :=
  let s := skipn (Z.to_nat offset) file in
  do ty <- peek_type_skip d s;;
  if ttype_eqb ty TyXref then
    do '(t, o, _) <- read_xref_table d resolve_length s;; Ok (t, o)
  else Throw ENotModelled.

(** File::Initialize, file.cpp:123-147, with ReadXref 698-722, for a file whose last section has no /Prev and no /XRefStm.  The
    fallback that searches the whole file (file.cpp:148-155) is not modelled, the exception it would handle is returned. *)
Definition open_file (file : bytes) : res (version * list xentry * obj) :=
  do v <- read_header file;;
  do offset <- last_xref_offset file;;
  do '(t, trailer) <- read_xref_at file offset;;
  match trailer with
  | ODict m => if sm_contains (str "Prev") m || sm_contains (str "XRefStm") m then Throw ENotModelled else Ok (v, t, trailer)
  | _ => Throw EConversion
  end.

(** XrefUsedEntry::Initialize, xref_entry.cpp:150-238: the object at the entry's offset *)
Definition load_entry (file : bytes) (e : xentry) : res (N * N * obj) :=
  match xdata e with
  | KUsed offset _ => do '(n, g, o, _) <- read_indirect_object (skipn (Z.to_nat offset) file);; Ok (n, g, o)
  | _ => Throw EGeneral
  end.
End Reader.

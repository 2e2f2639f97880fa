(** Saving streams whose length is an object of its own: FileWriter::RecalculateStreamLength, syntax/files/file_writer.cpp. *)
From Coq Require Import List NArith ZArith Bool String.
From Verif.Model Require Import Base Numbers SMap Object Token Parser Arith Xref StartXref Header FileWrite.
Import ListNotations.
Local Open Scope N_scope.

(** File::GetIndirectObjectInternal, file.cpp:805-890, in a document with one section, as the default save has it when it writes: the
    object of the entry with this number and generation; null without such an entry and for a free one.  Compressed entries are not
    modelled. *)
Definition find_object (l : list (xentry * obj)) (n g : N) : obj :=
  match find (fun p => (xnum (fst p) =? n) && (xgen (fst p) =? g)) l with
  | Some (e, o) => match xdata e with KUsed _ true => o | _ => ONull end
  | None => ONull
  end.

(** FindAs<IntegerObjectPtr>, dictionary_object.h:100-104, with ObjectTypeFunctor::Convert, object_utils.h:179-200: a reference is followed,
    and what is not a number makes the conversion throw.  A real number, whose integer part counts (object_utils.h:80-101), and a chain
    of several references (136-160) are not modelled. *)
Definition length_value (l : list (xentry * obj)) (v : obj) : res Z :=
  match (match v with ORef n g => find_object l n g | _ => v end) with
  | OInt z => Ok z
  | OReal _ _ _ | ORef _ _ => Throw ENotModelled
  | _ => Throw EConversion
  end.

(** FileWriter::RecalculateStreamLength, file_writer.cpp:676-702: a length, direct or not, that is the size of the data is kept as it is;
    any other is removed from the dictionary, and a missing one is inserted as an integer.  The object that a length refers to is not
    changed. *)
Definition set_length (l : list (xentry * obj)) (o : obj) : res obj :=
  match o with
  | OStream m data =>
      let len := OInt (Z.of_nat (List.length data)) in
      match sm_find (str "Length") m with
      | None => Ok (OStream (sm_insert (str "Length") len m) data)
      | Some v =>
          do z <- length_value l v;;
          do u <- to_u64 z;;
          Ok (if u =? N.of_nat (List.length data) then o
              else OStream (sm_insert (str "Length") len (sm_remove (str "Length") m)) data)
      end
  | _ => Ok o
  end.

(** FileWriter::RecalculateStreamsLength, file_writer.cpp:704-745.  Streams are changed in place while the loop goes on, but no length is
    read from a stream, so the lookup is in the objects as they were before.  Simplification: a released entry is treated like a used one
    (see Model/FileWrite.v). *)
Fixpoint set_lengths (all l : list (xentry * obj)) : res (list (xentry * obj)) :=
  match l with
  | [] => Ok []
  | (e, o) :: t =>
      do o' <- match xdata e with
               | KFree _ => Ok o
               | KUsed _ _ => set_length all o
               | KComp _ _ => if is_stream o then Throw EGeneral else Ok o
               end;;
      do t' <- set_lengths all t;;
      Ok ((e, o') :: t')
  end.

(** FileWriter::Write, file_writer.cpp:34-86 with WriteXrefChain 1318-1352 and WriteXref 1354-1387 for one section that is a table, as
    write_table_file of Model/FileWrite.v, for lengths of any kind *)
Definition write_document (v : version) (l : list (xentry * obj)) (trailer : list (bytes * obj)) : res bytes :=
  let hdr := write_header v in
  do l1 <- set_lengths l l;;
  let trailer' := set_size trailer (recalculate_size (map fst l1)) in
  let '(body, l2) := write_objects None (N.of_nat (List.length hdr)) l1 in
  do table <- write_xref_table (map fst l2) (ODict trailer');;
  Ok (hdr ++ body ++ [10] ++ table ++ write_xref_offset (Z.of_nat (List.length (hdr ++ body ++ [10])))).

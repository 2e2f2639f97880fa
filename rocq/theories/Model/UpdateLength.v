(** Incremental save of changed streams whose dictionaries refer to other objects: syntax/files/file_writer.cpp:88-155, 676-745,
    817-933, 1100-1207, syntax/objects/stream_object.cpp:310-430, syntax/objects/indirect_reference_object.cpp:248-262. *)
From Coq Require Import List NArith ZArith Bool String.
From Coq Require Import List.
From Verif.Model Require Import Base Numbers SMap Object Token Parser Xref StartXref Header FileWrite Chain Merge Update StreamBody SharedLength.
Import ListNotations.
Local Open Scope N_scope.

(** The end of FileWriter::WriteIncremental, file_writer.cpp:123-143: the section of the changed objects [l] is the only one in the chain
    of the destination, so references in copies of changed objects (IndirectReferenceObject::Clone keeps only the numbers) are followed
    to changed objects only, and to null otherwise (File::GetIndirectObjectInternal, file.cpp:805-813).  Lengths and Size are recalculated,
    then the objects, an empty line, the table and startxref are written, as in append_section of Model/Update.v. *)
Definition append_changes (out : bytes) (l : list (xentry * obj)) (trailer : list (bytes * obj)) : res (bytes * Z) :=
  do l1 <- set_lengths l l;;
  let trailer' := set_size trailer (recalculate_size (map fst l1)) in
  let '(body, l2) := write_objects None (N.of_nat (List.length out)) l1 in
  do table <- write_xref_table (map fst l2) (ODict trailer');;
  let offset := Z.of_nat (List.length (out ++ body ++ [10])) in
  Ok (out ++ body ++ [10] ++ table ++ write_xref_offset offset, offset).

(** FileWriter::WriteIncremental, file_writer.cpp:88-155, as write_incremental of Model/Update.v, for lengths of any kind *)
Definition write_changes (file : bytes) (c : list fsection) : res bytes :=
  do '(t, m) <- create_incremental c;;
  let m' := clone_trailer {| s_kind := STable; s_entries := map fst t; s_hybrid := None; s_trailer := m |} in
  do '(out, _) <- append_changes (file ++ [10]) t m';;
  Ok out.

(** ** Streams whose body was set *)
Section Bodies.
(** StreamObject::GetBodyEncoded, stream_object.cpp:310-430, of a stream with this dictionary and this body that was set, in a document
    that is not encrypted (Model/StreamBody.v, set_body and get_encoded) *)
Variable encode : list (bytes * obj) -> bytes -> res bytes.
(** the body that was set with StreamObject::SetBody (stream_object.cpp:84-92), for the object with this number and generation *)
Variable body : N -> N -> option bytes.

(** the dictionary as GetBodyEncoded sees it: IsType and FindAs (object_utils.h:136-200) follow a reference that is the Filter or the
    DecodeParms.  References inside of these are not modelled. *)
Definition followed (l : list (xentry * obj)) (k : bytes) (m : list (bytes * obj)) : list (bytes * obj) :=
  match sm_find k m with
  | Some (ORef n g) => sm_insert k (find_object l n g) (sm_remove k m)
  | _ => m
  end.
(** what is written between stream and endstream.  Simplification: the data is encoded once and before the section is copied, not when
    the length is determined and again when the object is written; nothing changes the stream or what it refers to between. *)
Definition encode_item (l : list (xentry * obj)) (x : fentry) : res fentry :=
  match f_object x, body (xnum (f_entry x)) (xgen (f_entry x)) with
  | OStream m _, Some b =>
      if f_dirty x then
        do data <- encode (followed l (str "DecodeParms") (followed l (str "Filter") m)) b;;
        Ok {| f_entry := f_entry x; f_object := OStream m data; f_dirty := true |}
      else Ok x
  | _, _ => Ok x
  end.
Fixpoint encode_items (l : list (xentry * obj)) (xs : list fentry) : res (list fentry) :=
  match xs with
  | [] => Ok []
  | x :: t => do y <- encode_item l x;; do t' <- encode_items l t;; Ok (y :: t')
  end.
Fixpoint encode_sections (l : list (xentry * obj)) (c : list fsection) : res (list fsection) :=
  match c with
  | [] => Ok []
  | s :: t =>
      do xs <- encode_items l (f_items s);;
      do t' <- encode_sections l t;;
      Ok ({| f_offset := f_offset s; f_items := xs; f_trailer := f_trailer s |} :: t')
  end.
(** FileWriter::WriteIncremental for a document some of whose streams have a body that was set *)
Definition write_update (file : bytes) (c : list fsection) : res bytes :=
  do '(t, _) <- collect c [list_head] false;;
  do c' <- encode_sections t c;;
  write_changes file c'.
End Bodies.

(** SetBody and GetBodyEncoded of a stream that was read from a document without encryption, Model/StreamBody.v; [zip] and [jpeg] are the
    encoders of zlib and libjpeg.  The other parameters are for decoding, and are not reached. *)
Definition encode_set (zip : bytes -> res bytes) (jpeg : list (bytes * obj) -> bytes -> res bytes) (m : list (bytes * obj)) (b : bytes) : res bytes :=
  get_encoded zip zip jpeg jpeg jpeg (fun _ => Ok) (fun _ => Ok) false false (set_body (loaded m false []) true b).

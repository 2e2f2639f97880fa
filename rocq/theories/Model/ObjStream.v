(** Object streams: syntax/files/file_writer.cpp:178-332 (rebuilding), syntax/parsers/parser.cpp:371-410 (parsing) and
    syntax/files/file.cpp:176-236 (loading the compressed objects). *)
From Coq Require Import List NArith ZArith Bool String.
From Verif.Model Require Import Base Char Numbers SMap Object Token Parser Arith Xref.
Import ListNotations.
Local Open Scope N_scope.

(** A compressed entry of a section with the object it refers to: XrefCompressedEntry, xref_entry.h:155-205 *)
Record comp_entry : Set := { ce_num : N; ce_stream : N; ce_index : N; ce_obj : obj }.

(** std::sort by GetIndex, file_writer.cpp:250-254.  Simplification: the order of entries with the same index, which std::sort leaves
    open, is the order of the section. *)
Fixpoint insert_by_index (e : comp_entry) (l : list comp_entry) : list comp_entry :=
  match l with
  | [] => [e]
  | x :: t => if ce_index x <? ce_index e then x :: insert_by_index e t else e :: l
  end.
Definition sort_by_index (l : list comp_entry) : list comp_entry := fold_right insert_by_index [] l.

(** The writing loop, file_writer.cpp:282-308: header text and data text from the entry at offset [off] on; [first] is the flag of the
    same name.  The object number written is the one of the object, i.e. of its entry. *)
Fixpoint objstm_parts (first : bool) (off : N) (l : list comp_entry) : bytes * bytes :=
  match l with
  | [] => ([], [])
  | e :: t =>
      let text := to_pdf (ce_obj e) in
      let '(h, b) := objstm_parts false (off + (N.of_nat (List.length text) + 1)) t in
      ((if first then [] else [32]) ++ to_string_N (ce_num e) ++ [32] ++ to_string_N off ++ h,
       (if first then [] else [32]) ++ text ++ b)
  end.

(** The rebuilt stream: number of objects (/N), offset of the first object (/First) and the body, file_writer.cpp:310-330 *)
Definition rebuild_object_stream (l : list comp_entry) : N * N * bytes :=
  let sorted := sort_by_index l in
  let '(header, data) := objstm_parts true 0 sorted in
  (N.of_nat (List.length sorted), N.of_nat (List.length header) + 1, header ++ [32] ++ data).

(** the entries of a section that belong to the object stream [n], file_writer.cpp:192-212 *)
Definition entries_of_stream (n : N) (l : list comp_entry) : list comp_entry := filter (fun e => ce_stream e =? n) l.

(** the distinct object stream numbers of a section, in the order of their first entry.  Simplification: the unordered map of
    file_writer.cpp:193 visits them in some order, each one once. *)
Fixpoint stream_numbers (l : list comp_entry) (seen : list N) : list N :=
  match l with
  | [] => []
  | e :: t => if existsb (N.eqb (ce_stream e)) seen then stream_numbers t seen else ce_stream e :: stream_numbers t (ce_stream e :: seen)
  end.

(** FileWriter::RecalculateObjectStreamContent, file_writer.cpp:178-332, for a section that is a cross-reference stream: the new
    counts and body of every object stream, and the entries of the section, which are left as they are (an index that does not match
    is only reported, 257-270). *)
Definition rebuild_section (l : list comp_entry) : list (N * (N * N * bytes)) * list comp_entry :=
  (map (fun n => (n, rebuild_object_stream (entries_of_stream n l))) (stream_numbers l []), l).

(** updating /N and /First of the stream dictionary, file_writer.cpp:322-330 *)
Definition set_counts (n first : N) (m : list (bytes * obj)) : list (bytes * obj) :=
  sm_insert (str "First") (OInt (Z.of_N first)) (sm_remove (str "First")
    (sm_insert (str "N") (OInt (Z.of_N n)) (sm_remove (str "N") m))).

Section Reader.
Variable d : dictionary.
Variable resolve_length : N -> N -> res Z.

(** Parser::ReadObjectStreamHeader, parser.cpp:371-383 *)
Definition read_objstm_header (s : bytes) : res ((N * Z) * bytes) :=
  do '(nv, r1) <- expect_skip d TyInt s;;
  do '(ov, r2) <- expect_skip d TyInt r1;;
  do num <- stoll nv;;
  do off <- stoll ov;;
  do n <- to_u64 num;;
  Ok ((n, off), r2).

(** Parser::ReadObjectStreamHeaders, parser.cpp:385-393; every header takes at least one byte, so the fuel is the length of the input *)
Fixpoint read_objstm_headers (fuel : nat) (i size : N) (s : bytes) : res (list (N * Z)) :=
  if size <=? i then Ok []
  else
    match fuel with
    | O => NoFuel
    | S f =>
        do '(h, r) <- read_objstm_header s;;
        do t <- read_objstm_headers f (i + 1) size r;;
        Ok (h :: t)
    end.

(** The loop of Parser::ReadObjectStreamEntries, parser.cpp:397-407: SetInputPosition(first + entry.offset), the sum is unsigned and
    becomes a signed position; a position outside the body leaves the stream at its end or failed, ReadDirectObject throws.
    Simplification: a negative position is treated like one behind the end. *)
Fixpoint read_objstm_objects (body : bytes) (first : N) (l : list (N * Z)) : res (list (N * obj)) :=
  match l with
  | [] => Ok []
  | (n, off) :: t =>
      let pos := ((Z.of_N first + off) mod 2 ^ 64)%Z in
      do '(o, _) <- parse_direct d resolve_length
                      (if (pos <=? Z.of_nat (List.length body))%Z then skipn (Z.to_nat pos) body else []);;
      do r <- read_objstm_objects body first t;;
      Ok ((n, o) :: r)
  end.

(** Parser::ReadObjectStreamEntries, parser.cpp:395-410 *)
Definition read_object_stream (first size : N) (body : bytes) : res (list (N * obj)) :=
  do hs <- read_objstm_headers (S (List.length body)) 0 size body;;
  read_objstm_objects body first hs.

(** File::InitializeObjectStream, file.cpp:192-208: the counts come from the stream dictionary, an empty body is refused *)
Definition find_unsigned (k : bytes) (m : list (bytes * obj)) : res N :=
  match sm_find k m with
  | Some (OInt z) => to_u64 z
  | Some (ORef _ _) => Throw ENotModelled
  | Some _ => Throw EConversion
  | None => Throw EGeneral
  end.
Definition load_object_stream (m : list (bytes * obj)) (body : bytes) : res (list (N * obj)) :=
  match body with
  | [] => Throw EGeneral
  | _ =>
      do first <- find_unsigned (str "First") m;;
      do size <- find_unsigned (str "N") m;;
      read_object_stream first size body
  end.
End Reader.

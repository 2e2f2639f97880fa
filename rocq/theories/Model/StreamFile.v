(** Writing a document whose section is a cross-reference stream, with the object streams its entries name:
    syntax/files/file_writer.cpp:34-86, 178-332, 1318-1411, syntax/files/xref.cpp:37-203. *)
From Coq Require Import List NArith ZArith Bool String.
From Verif.Model Require Import Base Char Numbers SMap Object Token Parser Arith Xref ObjStream StartXref Header FileWrite Chain.
Import ListNotations.
Local Open Scope N_scope.

(** the compressed entries of a section with their objects, file_writer.cpp:195-212 *)
Definition compressed_of (p : xentry * obj) : list comp_entry :=
  match xdata (fst p) with
  | KComp s i => [ {| ce_num := xnum (fst p); ce_stream := s; ce_index := i; ce_obj := snd p |} ]
  | _ => []
  end.
Definition compressed (l : list (xentry * obj)) : list comp_entry := flat_map compressed_of l.

(** replacing the value of an entry of a dictionary: Remove and Insert *)
Definition replace_entry (k : bytes) (v : obj) (m : list (bytes * obj)) : list (bytes * obj) := sm_insert k v (sm_remove k m).

Section Writer.
(** StreamObject::SetBody and then GetBodyEncoded with the header at that time (Model/StreamBody.v, set_body and get_encoded) *)
Variable encode : list (bytes * obj) -> bytes -> res bytes.

(** the object stream [k] gets its new counts and body, file_writer.cpp:219-248 and 310-330.  The chain has a single section.
    Simplification: the body is encoded at once instead of when the object is written; nothing changes the stream's filters between. *)
Fixpoint refill_one (k n first : N) (body : bytes) (l : list (xentry * obj)) : res (list (xentry * obj)) :=
  match l with
  | [] => Throw EGeneral
  | (e, o) :: t =>
      if xnum e =? k then
        if xgen e =? 0 then
          match xdata e, o with
          | KUsed _ _, OStream m _ =>
              do b <- encode (set_counts n first m) body;;
              Ok ((e, OStream (set_counts n first m) b) :: t)
          | _, _ => Throw EGeneral
          end
        else Throw EGeneral
      else do t' <- refill_one k n first body t;; Ok ((e, o) :: t')
  end.
(** FileWriter::RecalculateObjectStreamContent, file_writer.cpp:178-332 *)
Fixpoint refill (todo : list (N * (N * N * bytes))) (l : list (xentry * obj)) : res (list (xentry * obj)) :=
  match todo with
  | [] => Ok l
  | (k, (n, first, body)) :: r => do l' <- refill_one k n first body l;; refill r l'
  end.

(** the dictionary of the cross-reference stream: Size (file_writer.cpp:666-673), W (606-623), Index and DecodeParms (xref.cpp:184-198) *)
Definition xref_header (hdr : list (bytes * obj)) (size : N) (w : widths) (index : list N) : list (bytes * obj) :=
  let '(w1, w2, w3) := w in
  sm_remove (str "DecodeParms")
    (replace_entry (str "Index") (OArr (map (fun n => OInt (Z.of_N n)) index))
      (replace_entry (str "W") (OArr [OInt w1; OInt w2; OInt w3]) (set_size hdr size))).

(** FileWriter::Write with WriteXrefChain and WriteXref for a single section that is a cross-reference stream with header [hdr], whose
    object is [self].  Simplifications: cloning and optimising come before; the object that [l] has for [self] stands for the stream
    before its data was recalculated, its header is [hdr]. *)
Definition write_stream_document (v : version) (self : N * N) (hdr : list (bytes * obj)) (l : list (xentry * obj)) : res bytes :=
  let top := write_header v in
  do l0 <- refill (fst (rebuild_section (compressed l))) l;;
  do l1 <- recalculate_lengths l0;;
  let '(body, l2) := write_objects (Some self) (N.of_nat (List.length top)) l1 in
  do w <- recalculate_widths (map fst l2);;
  do '(w', index, data) <- recalculate_content w (map fst l2);;
  let m := xref_header hdr (recalculate_size (map fst l2)) w' index in
  do enc <- encode m data;;
  do stm <- recalculate_length (OStream m enc);;
  Ok (top ++ body ++ write_object (fst self) (snd self) stm ++ write_xref_offset (Z.of_nat (List.length (top ++ body)))).
End Writer.

(** A full save with the default settings of a document that has a cross-reference stream: FileWriter::Write
    (syntax/files/file_writer.cpp:34-86) with the stages of CompressAndOptimize (1778-1805), as in Model/Save.v.
    Simplifications: as in Model/Save.v, and no hybrid-reference sections. *)
From Coq Require Import List NArith ZArith Bool String.
From Verif.Model Require Import Base SMap Object Equality Xref Header FileWrite Chain Merge Unreferenced Duplicates Save StreamFile.
Import ListNotations.
Local Open Scope N_scope.

Definition at_id (i : N * N) (e : xentry) : bool := (xnum e =? fst i) && (xgen e =? snd i).
(** The merged section uses the stream object of the oldest stream (file_writer.cpp:1866-1877), and its trailer dictionary is the
    dictionary of that object (xref.h, XrefStream::GetTrailerDictionary): merging the newest trailer into it (1952-1958) changes the
    object. *)
Definition own_dictionary (self : N * N) (trailer : list (bytes * obj)) (p : xentry * obj) : xentry * obj :=
  match snd p with
  | OStream _ d => if at_id self (fst p) then (fst p, OStream trailer d) else p
  | _ => p
  end.
(** the dictionary of the stream object [self] *)
Definition dictionary_of (self : N * N) (items : list (xentry * obj)) : list (bytes * obj) :=
  match find (fun p => at_id self (fst p)) items with
  | Some (_, OStream m _) => m
  | _ => []
  end.

Section Save.
Variable real : bool -> N -> N -> dbl.
Variable hash : value -> N.
Variable content : xentry -> obj.
Variable order : list (xentry * obj) -> list N.
Variable arrange : list ditem -> list ditem.
Variable encode : list (bytes * obj) -> bytes -> res bytes.

(** CompressAndOptimize, file_writer.cpp:1778-1805: [c] has the newest section first, [self] is the number and generation of the stream
    object of its oldest stream.  The references in the trailer are those of the stream object, and are changed with them: redirecting
    them once more for the trailer (2289-2290) finds them redirected. *)
Definition optimize_stream (self : N * N) (c : chain) : res (list (xentry * obj) * (N * N)) :=
  do c1 <- merge_chain (fun _ => []) (rev c);;
  match c1 with
  | [m] =>
      let items := map (own_dictionary self (s_trailer m)) (map (fun e => (e, content e)) (s_entries m)) in
      do c2 <- remove_unreferenced (order items)
                 [{| u_kind := s_kind m; u_self := Some (fst self); u_items := items; u_trailer := s_trailer m |}];;
      match c2 with
      | [u] =>
          do '(items3, _) <- merge_equal real hash arrange (u_items u) [];;
          let items4 := drop_freed items3 in
          Ok (fst (close_gaps items4 []), (mapped (snd (squash_sections 0 [items4] [])) (fst self), snd self))
      | _ => Throw ENotModelled
      end
  | _ => Throw ENotModelled
  end.
(** FileWriter::Write, file_writer.cpp:34-86 *)
Definition save_stream_file (v : version) (self : N * N) (c : chain) : res bytes :=
  do '(items, self') <- optimize_stream self c;;
  write_stream_document encode v self' (dictionary_of self' items) items.
End Save.

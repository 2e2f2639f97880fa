(** A full save with the default settings of a hybrid-reference file: FileWriter::Write (syntax/files/file_writer.cpp:34-86), with
    CloneHybridStreams (334-393) and the stages of Model/SaveStream.v.
    Simplifications: as in Model/SaveStream.v. *)
From Coq Require Import List NArith ZArith Bool String.
From Verif.Model Require Import Base SMap Object Equality Xref Header FileWrite Chain Merge Unreferenced Duplicates Save StreamFile SaveStream.
Import ListNotations.
Local Open Scope N_scope.

(** a cloned section before its hybrid stream is set (CloneXref, file_writer.cpp:817-935, copies the entries of the table only) *)
Definition bare (s : section) : section :=
  {| s_kind := s_kind s; s_entries := s_entries s; s_hybrid := None; s_trailer := s_trailer s |}.

Section Save.
Variable real : bool -> N -> N -> dbl.
Variable hash : value -> N.
Variable content : xentry -> obj.
Variable order : list (xentry * obj) -> list N.
Variable arrange : list ditem -> list ditem.
Variable encode : list (bytes * obj) -> bytes -> res bytes.
(** the stream object of the hybrid stream of a table: its number and generation, and its dictionary *)
Variable stream_of : section -> N * N.
Variable dict_of : section -> list (bytes * obj).

(** CloneHybridStreams, file_writer.cpp:334-393: the tables from the newest to the oldest.  The stream object is looked up in the cloned
    chain, where the tables already visited ([done]) have their hybrid streams and the others ([todo]) do not. *)
Fixpoint clone_hybrids (done todo : chain) : res unit :=
  match todo with
  | [] => Ok tt
  | s :: r =>
      match s_kind s, s_hybrid s with
      | STable, Some _ =>
          match chain_entry (fst (stream_of s)) (snd (stream_of s)) (done ++ map bare todo) with
          | None => Throw EObjectMissing
          | Some e =>
              match xdata e with
              | KFree _ => Throw EGeneral
              | _ => match content e with OStream _ _ => clone_hybrids (done ++ [s]) r | _ => Throw EGeneral end
              end
          end
      | _, _ => clone_hybrids (done ++ [s]) r
      end
  end.

(** CompressAndOptimize, file_writer.cpp:1778-1805, as [optimize_stream] *)
Definition optimize_hybrid (self : N * N) (c : chain) : res (list (xentry * obj) * (N * N)) :=
  do c1 <- merge_chain dict_of (rev c);;
  match c1 with
  | [m] =>
      let items := map (own_dictionary self (s_trailer m)) (map (fun e => (e, content e)) (s_entries m)) in
      do c2 <- remove_unreferenced (order items)
                 [{| u_kind := s_kind m; u_self := Some (fst self); u_items := items; u_trailer := s_trailer m |}];;
      match c2 with
      | [u] =>
          do '(items3, _) <- merge_equal real hash arrange (u_items u) [];;
          let items4 := drop_freed items3 in
          Ok (fst (close_gaps items4 []), (mapped (snd (squash_sections 0 [items4] [])) (fst self), snd self))
      | _ => Throw ENotModelled
      end
  | _ => Throw ENotModelled
  end.
(** FileWriter::Write, file_writer.cpp:34-86 *)
Definition save_hybrid_file (v : version) (self : N * N) (c : chain) : res bytes :=
  do _ <- clone_hybrids [] c;;
  do '(items, self') <- optimize_hybrid self c;;
  write_stream_document encode v self' (dictionary_of self' items) items.
End Save.

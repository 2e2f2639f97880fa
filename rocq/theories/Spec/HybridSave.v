(** Hybrid-reference files, seen as files with tables and streams. *)
From Coq Require Import List NArith.
From Verif.Model Require Import Base Object Xref Chain.
Import ListNotations.

Section Spread.
(** the dictionary of a table's hybrid stream *)
Variable dict_of : section -> list (bytes * obj).
(** the same sections, with every hybrid stream as a section of its own behind its table: ISO 32000-1 7.5.8.4, "if an entry is not
    found in any given standard cross-reference section, the search shall proceed to the corresponding cross-reference stream section
    before looking in the previous cross-reference section" *)
Definition spread_section (s : section) : list section :=
  {| s_kind := s_kind s; s_entries := s_entries s; s_hybrid := None; s_trailer := s_trailer s |} ::
  match s_kind s, s_hybrid s with
  | STable, Some h => [ {| s_kind := SStream; s_entries := h; s_hybrid := None; s_trailer := dict_of s |} ]
  | _, _ => []
  end.
Definition spread (c : chain) : chain := flat_map spread_section c.
End Spread.
(** no number is listed by a table and by its hybrid stream *)
Definition apart (s : section) : Prop :=
  forall h e e', s_hybrid s = Some h -> In e (s_entries s) -> In e' h -> xnum e <> xnum e'.

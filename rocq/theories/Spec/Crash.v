(** Files that a program saved, and files that an interrupted save left behind. *)
From Coq Require Import List NArith ZArith Bool String Sorted.
From Coq Require Import List.
From Verif.Model Require Import Base SMap Object Token Xref StartXref Header FileWrite Chain Rebuild Update.
From Verif.Spec Require Import Grammar FileWrite Chain Update Rebuild.
Import ListNotations.
Local Open Scope N_scope.

(** The objects that were written into a file, in the order in which they were written: number, generation and object. *)
Definition journal := list (N * N * obj).
(** the state of an object after all of them *)
Fixpoint latest (n : N) (j : journal) : option (N * obj) :=
  match j with
  | [] => None
  | (n', g, o) :: t => match latest n t with Some x => Some x | None => if n' =? n then Some (g, o) else None end
  end.

(** What a full save writes: the objects in use, section by section. *)
Definition in_use (p : xentry * obj) : journal :=
  match xdata (fst p) with KUsed _ true => [(xnum (fst p), xgen (fst p), snd p)] | _ => [] end.
Definition saved_objects (c : list (list (xentry * obj) * list (bytes * obj))) : journal := flat_map (fun s => flat_map in_use (fst s)) c.
(** What an incremental save writes: every changed object once, in the order of the numbers. *)
Definition update_objects (c : list fsection) (w : journal) : Prop :=
  StronglySorted N.lt (map (fun x => fst (fst x)) w) /\
  forall n g o, In (n, g, o) w <-> exists e, changed_live c e o /\ xnum e = n /\ xgen e = g.
(** No object is a cross-reference stream. *)
Definition plain (j : journal) : Prop := Forall (fun x => not_xref (snd x)) j.

(** A state of an opened document that can be saved incrementally. *)
Definition updatable (s : fsection) (r : list fsection) : Prop :=
  changes_saveable entry_saveable storable (s :: r) /\ changed_once (s :: r) /\ writable (ODict (f_trailer s)) /\
  (forall v, ~ In (str "XRefStm", v) (f_trailer s)) /\ (0 <= f_offset s < 2 ^ 63)%Z /\ N.of_nat (List.length (flat_map f_items (s :: r))) + 1 < 2 ^ 63.
Definition document_keys : list bytes := [str "Root"; str "Info"; str "ID"; str "Encrypt"].

(** A file with version [v] that was saved once in full, and then incrementally any number of times; the objects written into it so far,
    and the dictionary from which its last trailer has the document's keys. *)
Inductive history (v : version) : bytes -> journal -> list (bytes * obj) -> Prop :=
| hi_saved : forall c l m file, Forall section_saveable (c ++ [(l, m)]) -> plain (saved_objects (c ++ [(l, m)])) ->
    write_tables v (c ++ [(l, m)]) = Ok file -> (Z.of_nat (List.length file) < 2 ^ 63)%Z ->
    history v file (saved_objects (c ++ [(l, m)])) m
| hi_updated : forall file j m s r w file', history v file j m -> updatable s r -> update_objects (s :: r) w -> plain w ->
    write_incremental file (s :: r) = Ok file' -> (Z.of_nat (List.length file') < 2 ^ 63)%Z ->
    history v file' (j ++ w) (f_trailer s).

(** The objects that are found in a file without usable cross-reference data are those of [j], each in its last state: the entry leads to
    the object that is held, and reading the file at its place gives the same object. *)
Definition shows (file : bytes) (st : found) (j : journal) : Prop := forall n g,
  match latest n j with
  | Some (g', o) =>
      if g' =? g then exists e o', resolve_entry n g (rebuilt_chain st) = Some e /\ In (e, o') (f_held st) /\ same_object o o' /\
                        forall rl, load_entry parser_dictionary rl file e = Ok (n, g, o')
      else resolve_entry n g (rebuilt_chain st) = None
  | None => resolve_entry n g (rebuilt_chain st) = None
  end.
Definition keeps_document (st : found) (m : list (bytes * obj)) : Prop := forall k, In k document_keys -> sm_find k (Rebuild.f_trailer st) = sm_find k m.

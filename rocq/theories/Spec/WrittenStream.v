(** What saving with a cross-reference stream has to keep for the file to follow the standard. *)
From Coq Require Import NArith ZArith String.
From Coq Require Import List.
From Verif.Model Require Import Base Object Xref.
From Verif.Spec Require Import Conforming.
Import ListNotations.
Local Open Scope N_scope.

(** the objects of every object stream can be put in such an order that the index that is recorded for each is its place *)
Definition indexes_are_places (l : list (xentry * obj)) : Prop :=
  forall k, exists members, forall e o i, In (e, o) l /\ xdata e = KComp k i <-> nth_error members (N.to_nat i) = Some (e, o).
(** the number of the objects in an object stream *)
Definition members_count (l : list (xentry * obj)) (k : N) : N :=
  N.of_nat (List.length (filter (fun p => match xdata (fst p) with KComp s _ => s =? k | _ => false end) l)).
(** the number behind the last "startxref" *)
Definition says_start (file : list N) (place : N) : Prop :=
  exists before ds, file = before ++ str "startxref" ++ [10] ++ ds ++ [10] ++ str "%%EOF" ++ [10] /\
    number_text ds place.

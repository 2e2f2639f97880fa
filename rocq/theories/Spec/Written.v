(** What a program that knows only the standard finds in a saved file. *)
From Coq Require Import List NArith ZArith Bool String.
From Coq Require Import List.
From Verif.Model Require Import Base Object Xref Header Update.
From Verif.Spec Require Import Strings Grammar FileWrite Update Conforming.
Import ListNotations.
Local Open Scope N_scope.

(** The sections of the document that is saved, the oldest first: entries with their objects, and the trailer. *)
Definition saved_section : Type := (list (xentry * obj) * list (list N * obj))%type.
(** [e] is the entry of its number in the newest section that has one *)
Definition newest (c : list saved_section) (e : xentry) (o : obj) : Prop :=
  exists older s newer, c = older ++ s :: newer /\ In (e, o) (fst s) /\ forall x p, In x newer -> In p (fst x) -> xnum (fst p) <> xnum e.
Definition unknown (c : list saved_section) (n : N) : Prop := forall s p, In s c -> In p (fst s) -> xnum (fst p) <> n.
(** the links of the list of free objects have at most ten digits *)
Definition short_links (s : saved_section) : Prop := forall e o next, In (e, o) (fst s) -> xdata e = KFree next -> next < 10 ^ 10.

(** 7.5.5: Size is one more than the highest number; objects with a number that is not below it are missing *)
Definition size_covers (r : revision) : Prop :=
  forall z n row, In (str "Size", OInt z) (r_trailer r) -> In (n, row) (r_rows r) -> (Z.of_N n < z)%Z.

(** The text of an object that needs no other object to be read: a direct object, or a stream with its length in its dictionary. *)
Definition complete_text (txt : list N) (o : obj) : Prop := object_text txt o \/ stream_text (fun _ _ => None) txt o.
(** No section of the opened document holds a change of this number. *)
Definition unchanged (c : list fsection) (n : N) : Prop :=
  forall s x, In s c -> In x (f_items s) -> f_dirty x = true -> xnum (f_entry x) <> n.
(** how many changes there are *)
Definition change_count (c : list fsection) : N :=
  N.of_nat (List.length (List.filter f_dirty (List.flat_map f_items c))).

(** What a program that knows only the standard sees in a file before and after it was opened and saved. *)
From Coq Require Import List NArith ZArith Bool String.
From Coq Require Import List.
From Verif.Model Require Import Base SMap Object Equality Header Duplicates Save.
From Verif.Spec Require Import Strings Grammar FileWrite Duplicates Conforming Save.
Import ListNotations.
Local Open Scope N_scope.

(** [f] gives the objects of the file: what can be reached from the trailer is what the references stand for *)
Definition shows (file : list N) (revs : list revision) (f : store) (trailer : list (list N * obj)) : Prop :=
  forall n g, live f (ODict trailer) n g -> stands_for file revs n g (f n g).

(** What can be reached: no reference leads to null or to another reference, the objects can be stored, streams have their length in
    their dictionary; and the objects have hashes that do not follow references, or are streams with data of their own. *)
Record sound_document (real : bool -> N -> N -> dbl) (hash : value -> N) (f : store) (trailer : obj) : Prop := {
  sd_found : forall n g, live f trailer n g -> f n g <> ONull;
  sd_stored : forall n g, live f trailer n g -> storable (f n g) /\ forall n' g', f n g <> ORef n' g';
  sd_steady : forall n g, live f trailer n g ->
    steady hash {| d_num := n; d_gen := g; d_comp := false; d_value := value_of real (f n g); d_cache := 0 |} \/
    exists m d, f n g = OStream m d /\ forall n' g' m', live f trailer n' g' -> f n' g' = OStream m' d -> n' = n /\ g' = g
}.

(** Root, Info and ID of the two trailers are there or not, and look the same at any depth *)
Definition same_entries (real : bool -> N -> N -> dbl) (f f' : store) (m m' : list (list N * obj)) : Prop :=
  forall key, In key [str "Root"; str "Info"; str "ID"] ->
    match sm_find key m, sm_find key m' with
    | Some a, Some b => same_document real f f' a b
    | None, None => True
    | _, _ => False
    end.

(** every row in use, of every section, leads to an object with the number and generation of the row *)
Definition rows_lead_to_objects (file : list N) (revs : list revision) : Prop :=
  forall s n offset g, In s revs -> In (n, InUse offset g) (r_rows s) -> exists o, object_at (body_of file revs) file offset n g o.

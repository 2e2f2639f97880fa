(** Saving is expected to leave the open document alone.  What the program made of the document, and which parts of it an incremental
    save takes away. *)
From Coq Require Import List NArith ZArith Bool String.
From Verif.Model Require Import Base Object Xref Chain Update Resave.
From Verif.Spec Require Import Save.
Import ListNotations.
Local Open Scope N_scope.

(** [wanted]: the objects as the program left them, whatever was saved in between.  [touched]: the objects the program edited or
    created.  [lost]: those that were touched before the last incremental save. *)
Record history : Type := { wanted : store; touched : N -> N -> Prop; lost : N -> N -> Prop }.
Definition put (n g : N) (o : obj) (f : store) : store := fun n' g' => if (n' =? n) && (g' =? g) then o else f n' g'.
Definition also (n g : N) (P : N -> N -> Prop) : N -> N -> Prop := fun n' g' => (n' = n /\ g' = g) \/ P n' g'.

(** an action and the number the library answered when an object was created; null cannot be edited *)
Definition next_history (h : history) (p : action * answer) : history :=
  match p with
  | (Change n g o, _) =>
      match wanted h n g with
      | ONull => h
      | _ => {| wanted := put n g o (wanted h); touched := also n g (touched h); lost := lost h |}
      end
  | (Create o, Number (Ok i)) => {| wanted := put i 0 o (wanted h); touched := also i 0 (touched h); lost := lost h |}
  | (SaveUpdate, _) => {| wanted := wanted h; touched := touched h; lost := touched h |}
  | _ => h
  end.
Definition history_of (f : store) (l : list (action * answer)) : history :=
  fold_left next_history l {| wanted := f; touched := fun _ _ => False; lost := fun _ _ => False |}.

(** A document that was just opened: at least one section, every section lists a number once, no two entries are for the same object
    at the same place, objects are in use, nothing is changed. *)
Definition just_opened (d : document) : Prop :=
  d_sections d <> [] /\
  (forall s, In s (d_sections d) -> NoDup (map (fun x => xnum (f_entry x)) (f_items s))) /\
  NoDup (map f_entry (flat_map f_items (d_sections d))) /\
  forall x, In x (flat_map f_items (d_sections d)) -> f_dirty x = false /\ xgen (f_entry x) <= 65535 /\
    match xdata (f_entry x) with KFree _ => True | KUsed _ u => u = true | KComp _ _ => False end.
(** the sections as the library sees them: tables, newest first *)
Definition tables_of (d : document) : chain := map as_section (d_sections d).
(** the objects of the document: the first entry, newest section first, with that number and generation, unless it is free *)
Definition objects_of (d : document) : store :=
  fun n g => match find (fun x => (xnum (f_entry x) =? n) && (xgen (f_entry x) =? g)) (flat_map f_items (d_sections d)) with
             | Some x => match xdata (f_entry x) with KFree _ => ONull | _ => f_object x end
             | None => ONull
             end.

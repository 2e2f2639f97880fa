(** What a section of a saved file must contain, and which changes an incremental save has to record. *)
From Coq Require Import List NArith ZArith Bool String Sorted.
From Verif.Model Require Import Base Object Token Xref FileWrite Chain Update.
From Verif.Spec Require Import Grammar Chain FileWrite.
Import ListNotations.
Local Open Scope N_scope.

(** In [file] the section [sec] is a plain table that lists exactly the numbers of [l]; an entry in use points to where its object's
    text begins, and loading it gives the object of [l]; the other entries are free. *)
Definition holds_section (d : dictionary) (rl : N -> N -> res Z) (file : bytes) (sec : section) (l : list (xentry * obj)) : Prop :=
  s_kind sec = STable /\ s_hybrid sec = None /\
  (forall n, (exists x, In x (s_entries sec) /\ xnum x = n) <-> exists p, In p l /\ xnum (fst p) = n) /\
  forall e o, In (e, o) l ->
    match xdata e with
    | KUsed _ _ => exists offset o', entry_of sec (xnum e) {| xnum := xnum e; xgen := xgen e; xdata := KUsed offset true |} /\
        starts_at file offset (object_heading (xnum e) (xgen e)) /\
        load_entry d rl file {| xnum := xnum e; xgen := xgen e; xdata := KUsed offset true |} = Ok (xnum e, xgen e, o') /\ same_object o o'
    | _ => entry_of sec (xnum e) {| xnum := xnum e; xgen := xgen e; xdata := KFree 0 |}
    end.

(** An entry of the open file that was changed and describes an object, or was changed and is free *)
Definition changed_live (c : list fsection) (e : xentry) (o : obj) : Prop :=
  exists s off, In s c /\ xdata e = KUsed off true /\ In {| f_entry := e; f_object := o; f_dirty := true |} (f_items s).
(** every changed entry can be saved in a table *)
Definition changes_saveable (saveable : xentry -> Prop) (storable : obj -> Prop) (c : list fsection) : Prop :=
  forall s x, In s c -> In x (f_items s) -> f_dirty x = true ->
    match xdata (f_entry x) with
    | KUsed _ true => saveable (f_entry x) /\ storable (f_object x)
    | KUsed _ false => True
    | KFree _ => saveable (f_entry x)
    | KComp _ _ => False
    end.
(** a number was changed in at most one section, and a section has it once *)
Definition changed_once (c : list fsection) : Prop :=
  forall c1 s1 c2 i1 x1 i2, c = c1 ++ s1 :: c2 -> f_items s1 = i1 ++ x1 :: i2 -> f_dirty x1 = true ->
    (forall x2, In x2 i2 -> f_dirty x2 = true -> xnum (f_entry x2) <> xnum (f_entry x1)) /\
    (forall s2 x2, In s2 c2 -> In x2 (f_items s2) -> f_dirty x2 = true -> xnum (f_entry x2) <> xnum (f_entry x1)).

(** A section that can be saved: numbers strictly increasing, entries and objects that can be written, a trailer dictionary that can be
    written and names no hybrid stream. *)
Definition section_saveable (p : list (xentry * obj) * list (bytes * obj)) : Prop :=
  StronglySorted N.lt (map (fun x => xnum (fst x)) (fst p)) /\
  Forall (fun x => entry_saveable (fst x) /\ (forall off, xdata (fst x) = KUsed off true -> storable (snd x))) (fst p) /\
  writable (ODict (snd p)) /\ (forall v, ~ In (str "XRefStm", v) (snd p)) /\ N.of_nat (List.length (fst p)) < 2 ^ 63.
(** the trailer read back: the same keys and values, except for Size and Prev *)
Definition same_trailer (m m' : list (bytes * obj)) : Prop :=
  forall k v, k <> str "Size" -> k <> str "Prev" -> In (k, v) m <-> In (k, v) m'.

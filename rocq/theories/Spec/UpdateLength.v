(** Which changes of an opened document an incremental save can write, and what the new file says about them. *)
From Coq Require Import List NArith ZArith Bool String.
From Coq Require Import List.
From Verif.Model Require Import Base Object Xref Update.
From Verif.Spec Require Import Strings Grammar FileWrite Update Conforming Written SharedLength.
Import ListNotations.
Local Open Scope N_scope.

(** the changed objects of an opened document, with their entries *)
Definition changed_item (x : fentry) : list (xentry * obj) :=
  match f_dirty x, xdata (f_entry x) with
  | true, KUsed _ true => [(f_entry x, f_object x)]
  | _, _ => []
  end.
Definition changed_objects (c : list fsection) : list (xentry * obj) := flat_map (fun s => flat_map changed_item (f_items s)) c.

(** All changes can be written.  A stream has a length in its dictionary, or a reference to a number that was changed too, or none. *)
Definition changes_ready (s : fsection) (r : list fsection) : Prop :=
  changes_saveable entry_saveable (saveable_object (changed_objects (s :: r))) (s :: r) /\ changed_once (s :: r) /\
  writable (ODict (f_trailer s)) /\ (forall v, ~ In (str "XRefStm", v) (f_trailer s)) /\
  (0 <= f_offset s < 2 ^ 63)%Z /\ N.of_nat (List.length (flat_map f_items (s :: r))) + 1 < 2 ^ 63.

(** The changed object as the program left it: when the body of a stream was set, its data is that body encoded with the stream's own
    filters. *)
Definition as_left (encode : list (list N * obj) -> bytes -> res bytes) (body : N -> N -> option bytes) (e : xentry) (o o1 : obj) : Prop :=
  match o, body (xnum e) (xgen e) with
  | OStream m _, Some b => exists data, encode m b = Ok data /\ o1 = OStream m data
  | _, _ => o1 = o
  end.
(** the filters of the streams whose body was set are in their dictionaries *)
Definition direct_filters (body : N -> N -> option bytes) (c : list fsection) : Prop :=
  forall e m d, changed_live c e (OStream m d) -> body (xnum e) (xgen e) <> None ->
    forall n g, ~ In (str "Filter", ORef n g) m /\ ~ In (str "DecodeParms", ORef n g) m.
(** What a file with one section more says about objects that were not changed: what it said before.  Streams whose length is another
    object are left out. *)
Definition others_kept (file file' : list N) (revs revs' : list revision) (n : N) : Prop :=
  (forall g pos older o, current revs n (InUse pos g) older -> object_at complete_text file pos n g o -> stands_for file' revs' n g o) /\
  (forall g g' older, current revs n (Free g') older -> stands_for file' revs' n g ONull) /\
  (forall g, not_listed revs n -> stands_for file' revs' n g ONull).

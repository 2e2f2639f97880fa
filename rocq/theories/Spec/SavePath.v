(** Saving to a path, seen from the disk: a disk gives every path the bytes of its file, if there is one. *)
From Coq Require Import List NArith ZArith.
From Verif.Model Require Import Base Object Token Xref FileWrite Update SavePath.
Import ListNotations.
Local Open Scope N_scope.

(** nothing but the file [p] differs *)
Definition only_touches (p : path) (before after : disk) : Prop := forall q, q <> p -> after q = before q.
(** an object of the document that no one has asked for yet: it is in the file, behind the two lines of the header *)
Definition unread_object (doc : open_document) (x : lazy_entry) : Prop :=
  (exists s, In s (o_sections doc) /\ In x (z_items s)) /\ z_held x = None /\
  exists offset u, xdata (z_entry x) = KUsed offset u /\ (15 <= offset)%Z.
(** every object has been asked for *)
Definition all_read (doc : open_document) : Prop :=
  forall s x, In s (o_sections doc) -> In x (z_items s) -> z_held x <> None \/ exists n, xdata (z_entry x) = KFree n.

(** the entries of a document in memory, with what they hold: an object that was read (and maybe changed) is the one held, any other one
    is what the file has at its place *)
Definition same_sections (same : lazy_entry -> fentry -> Prop) (c : list lazy_section) (c' : list fsection) : Prop :=
  Forall2 (fun s s' => f_offset s' = z_offset s /\ f_trailer s' = z_trailer s /\ Forall2 same (z_items s) (f_items s')) c c'.
Definition as_known (x : lazy_entry) (y : fentry) : Prop :=
  f_entry y = z_entry x /\ f_dirty y = z_dirty x /\ forall o, z_held x = Some o -> f_object y = o.
Definition as_read (rl : N -> N -> res Z) (file : bytes) (x : lazy_entry) (y : fentry) : Prop :=
  as_known x y /\
  (z_held x = None -> forall offset u, xdata (z_entry x) = KUsed offset u ->
     exists n g, load_entry parser_dictionary rl file (z_entry x) = Ok (n, g, f_object y)).

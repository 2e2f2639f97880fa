(** Reachability of the objects of a document. *)
From Coq Require Import List NArith ZArith Bool.
From Verif.Model Require Import Base Object Xref Chain Unreferenced.
From Verif.Spec Require Import Merge.
Import ListNotations.
Local Open Scope N_scope.

(** somewhere inside the object there is a reference to (n, g) *)
Inductive mentions (n g : N) : obj -> Prop :=
| m_ref : mentions n g (ORef n g)
| m_arr : forall l o, In o l -> mentions n g o -> mentions n g (OArr l)
| m_dict : forall l k o, In (k, o) l -> mentions n g o -> mentions n g (ODict l)
| m_stream : forall l d k o, In (k, o) l -> mentions n g o -> mentions n g (OStream l d).

(** the document has an object with this number and generation *)
Definition has_object (c : list usection) (n g : N) (o : obj) : Prop :=
  exists s e, In s c /\ In (e, o) (u_items s) /\ xnum e = n /\ xgen e = g /\ describes_object e.

(** Objects that can be reached: through the trailer of a table, through a cross-reference stream and the object streams its entries
    name, and through references inside reachable objects. *)
Inductive reachable (c : list usection) : N -> Prop :=
| r_trailer : forall s n g o, In s c -> u_kind s = STable -> mentions n g (ODict (u_trailer s)) -> has_object c n g o -> reachable c n
| r_self : forall s n, In s c -> u_kind s = SStream -> u_self s = Some n -> reachable c n
| r_objects : forall s e o n i, In s c -> u_kind s = SStream -> In (e, o) (u_items s) -> xdata e = KComp n i -> reachable c n
| r_step : forall m gm o n g o', reachable c m -> has_object c m gm o -> mentions n g o -> has_object c n g o' -> reachable c n.

(** every number is used once in the document *)
Definition numbers_distinct (c : list usection) : Prop := NoDup (map (fun p => xnum (fst p)) (flat_map u_items c)).
(** the numbers of the entries that are not free, in some order *)
Definition lists_numbers (c : list usection) (order : list N) : Prop :=
  forall n, In n order <-> exists s e o, In s c /\ In (e, o) (u_items s) /\ xnum e = n /\ forall next, xdata e <> KFree next.
(** [c'] is [c] without some entries *)
Definition keeps (keep : xentry -> Prop) (c c' : list usection) : Prop :=
  Forall2 (fun s s' => u_kind s' = u_kind s /\ u_self s' = u_self s /\ u_trailer s' = u_trailer s /\
                       forall p, In p (u_items s') <-> In p (u_items s) /\ keep (fst p)) c c'.

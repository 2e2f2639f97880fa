(** Documents with object streams (ISO 32000-1, 7.5.7), and who finds their objects after a save. *)
From Coq Require Import List NArith ZArith Bool String.
From Coq Require Import List.
From Verif.Model Require Import Base SMap Object Xref Chain.
From Verif.Spec Require Import Chain Unreferenced Save SaveStream.
Import ListNotations.
Local Open Scope N_scope.

(** object [n] of the document is in the object stream [k], and the index that is recorded for it is [i] *)
Definition packed_at (c : chain) (n k i : N) : Prop := exists e, resolve_entry n 0 c = Some e /\ xdata e = KComp k i.
(** an object that can be reached from the catalog, the information dictionary or the identifier *)
Definition shown (f : store) (trailer : list (list N * obj)) (n g : N) : Prop :=
  exists key v, In key [str "Root"; str "Info"; str "ID"] /\ sm_find key trailer = Some v /\ live f v n g.
(** an object that can be reached from the trailer or from the objects that only store others (their dictionaries may name objects) *)
Definition needed (c : chain) (self : N * N) (f : store) (trailer : list (list N * obj)) (n g : N) : Prop :=
  live f (ODict trailer) n g \/ exists m gm, storage c self m gm /\ live f (f m gm) n g.
(** every object stream has the objects that are in it and are shown one after the other, and their indexes are their places; objects
    that are not needed may have other indexes *)
Definition in_place (c : chain) (f : store) (trailer : list (list N * obj)) : Prop :=
  forall k, exists members : list N, forall n i, packed_at c n k i /\ shown f trailer n 0 <-> nth_error members (N.to_nat i) = Some n.
(** the object streams keep the indexes of the document, under new numbers: [items] is what is written *)
Definition packed_as_before (c : chain) (self : N * N) (f : store) (trailer : list (list N * obj)) (items : list (xentry * obj)) : Prop :=
  exists (number : N -> N) (kept : N -> Prop),
    (forall a b, kept a -> kept b -> number a = number b -> a = b) /\
    (forall e o k' i, In (e, o) items -> xdata e = KComp k' i -> exists n k, packed_at c n k i /\ kept n /\ kept k /\
       xnum e = number n /\ k' = number k /\ needed c self f trailer n 0) /\
    (forall n k i, packed_at c n k i -> shown f trailer n 0 -> kept n /\ kept k /\
       exists e o, In (e, o) items /\ xnum e = number n /\ xdata e = KComp (number k) i).

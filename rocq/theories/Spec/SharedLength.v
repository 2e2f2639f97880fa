(** Documents whose streams have their length in their dictionary, in another object, or nowhere. *)
From Coq Require Import List NArith ZArith Bool String Sorted.
From Coq Require Import List.
From Verif.Model Require Import Base Object Xref.
From Verif.Spec Require Import Strings Grammar FileWrite Conforming Written.
Import ListNotations.
Local Open Scope N_scope.

(** the document has this object under this number and generation *)
Definition has (l : list (xentry * obj)) (n g : N) (o : obj) : Prop :=
  exists off, In ({| xnum := n; xgen := g; xdata := KUsed off true |}, o) l.

(** A direct object, or a stream.  The length of a stream, when there is one, is a natural number, right or wrong, or a reference to an
    object that is such a number.  Any number of streams may refer to the same object. *)
Inductive saveable_object (l : list (xentry * obj)) : obj -> Prop :=
| sv_direct : forall o, writable o -> saveable_object l o
| sv_stream : forall m data, writable (ODict m) -> N.of_nat (List.length data) < 2 ^ 63 ->
    (forall v, In (str "Length", v) m ->
       (exists z, v = OInt z /\ (0 <= z)%Z) \/ (exists n g z, v = ORef n g /\ has l n g (OInt z) /\ (0 <= z)%Z)) ->
    saveable_object l (OStream m data).
Definition saveable_document (l : list (xentry * obj)) : Prop :=
  StronglySorted N.lt (map (fun p => xnum (fst p)) l) /\ N.of_nat (List.length l) < 2 ^ 63 /\
  (forall e o next, In (e, o) l -> xdata e = KFree next -> next < 10 ^ 10) /\
  forall e o, In (e, o) l -> entry_saveable e /\ (forall off, xdata e = KUsed off true -> saveable_object l o).

(** The file has the object as the document has it.  A stream has all its data and the other entries of its dictionary; its length is the
    size of the data, or is still the object that the document refers to, and that object is in the file and is the size of the data. *)
Inductive kept_object (file : list N) (revs : list revision) : obj -> obj -> Prop :=
| ko_direct : forall o, writable o -> kept_object file revs o o
| ko_stream : forall m m' data, (forall k v, k <> str "Length" -> In (k, v) m <-> In (k, v) m') ->
    (exists v, In (str "Length", v) m') ->
    (forall v, In (str "Length", v) m' -> v = OInt (Z.of_nat (List.length data)) \/
       exists n g, v = ORef n g /\ In (str "Length", v) m /\ stands_for file revs n g (OInt (Z.of_nat (List.length data)))) ->
    kept_object file revs (OStream m data) (OStream m' data).

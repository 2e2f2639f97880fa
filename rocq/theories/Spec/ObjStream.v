(** 7.5.7: what it means that an object stream holds given objects. *)
From Coq Require Import List NArith ZArith Permutation Sorted.
From Verif.Model Require Import Base Object.
Import ListNotations.
Local Open Scope N_scope.

(** a member of an object stream: object number, index recorded for it in the cross-reference section, the object *)
Definition member : Set := (N * N * obj)%type.

(** [out] lists the members' numbers and objects in the order of their indexes *)
Definition holds (members : list member) (out : list (N * obj)) : Prop :=
  exists ordered, Permutation ordered members /\
    StronglySorted (fun a b : member => snd (fst a) <= snd (fst b)) ordered /\
    out = map (fun m : member => (fst (fst m), snd m)) ordered.

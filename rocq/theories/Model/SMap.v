(** std::map<NameObjectPtr, ContainableObjectPtr> (syntax/objects/dictionary_object.h:19-72) as an association list kept sorted by the
    map's key order: NameObject ordering is Buffer::LessThan (utils/buffer.cpp:49-51), the lexicographic order of
    vector<char> with signed char elements. *)
From Coq Require Import List NArith ZArith Bool.
From Verif.Model Require Import Base.
Import ListNotations.
Local Open Scope N_scope.

(** utils/buffer.cpp:49-51 (std::lexicographical_compare on char) *)
Fixpoint buffer_ltb (a b : bytes) : bool :=
  match a, b with
  | [], [] => false
  | [], _ :: _ => true
  | _ :: _, [] => false
  | x :: a', y :: b' =>
      if (schar x <? schar y)%Z then true
      else if (schar y <? schar x)%Z then false
      else buffer_ltb a' b'
  end.

Section SMap.
Context {V : Type}.

Definition smap := list (bytes * V).

(** std::map::find *)
Fixpoint sm_find (k : bytes) (m : smap) : option V :=
  match m with
  | [] => None
  | (k', v) :: t =>
      if buffer_ltb k k' then None
      else if buffer_ltb k' k then sm_find k t
      else Some v
  end.

(** std::map::insert: an existing element is kept *)
Fixpoint sm_insert (k : bytes) (v : V) (m : smap) : smap :=
  match m with
  | [] => [(k, v)]
  | (k', v') :: t =>
      if buffer_ltb k k' then (k, v) :: m
      else if buffer_ltb k' k then (k', v') :: sm_insert k v t
      else m
  end.

(** std::map::erase of the element found *)
Fixpoint sm_remove (k : bytes) (m : smap) : smap :=
  match m with
  | [] => []
  | (k', v') :: t =>
      if buffer_ltb k k' then m
      else if buffer_ltb k' k then (k', v') :: sm_remove k t
      else t
  end.

Definition sm_contains (k : bytes) (m : smap) : bool :=
  match sm_find k m with Some _ => true | None => false end.
End SMap.
Arguments smap V : clear implicits.

(** The value part of the mutable containers: DictionaryObject, MixedArrayObject and AttributeList.  Elements are of any
    type [V] (in the code: reference counted pointers to objects; Model/Heap.v uses object identities).
    Notification of observers, owners and hash caches are in Model/Heap.v.  Locks are not modelled: one thread. *)
From Coq Require Import List NArith ZArith Bool.
From Verif.Model Require Import Base SMap.
Import ListNotations.
Local Open Scope N_scope.

Section Dict.
Context {V : Type}.

(** DictionaryObject::Find, dictionary_object.cpp:114-124 *)
Definition dict_find (m : smap V) (k : bytes) : res V :=
  match sm_find k m with Some v => Ok v | None => Throw EGeneral end.

(** DictionaryObject::TryFind, dictionary_object.cpp:131-142: the output pointer is written only when found *)
Definition dict_try_find (m : smap V) (k : bytes) : option V := sm_find k m.

(** DictionaryObject::Contains, dictionary_object.cpp:213-217 *)
Definition dict_contains (m : smap V) (k : bytes) : bool := sm_contains k m.

(** DictionaryObject::GetSize, dictionary_object.cpp:326-335 *)
Definition dict_size (m : smap V) : nat := length m.

(** DictionaryObject::Remove, dictionary_object.cpp:149-173: the result says whether the key was present *)
Definition dict_remove (m : smap V) (k : bytes) : smap V * bool :=
  match sm_find k m with
  | None => (m, false)
  | Some _ => (sm_remove k m, true)
  end.

(** DictionaryObject::Insert, dictionary_object.cpp:180-206.  [overwrite] skips the test for a present key, and the pair goes to
    std::map::insert, which keeps a present element. *)
Definition dict_insert (m : smap V) (k : bytes) (v : V) (overwrite : bool) : res (smap V) :=
  if negb overwrite && sm_contains k m then Throw EDuplicateKey
  else Ok (sm_insert k v m).

(** DictionaryObject::Merge, dictionary_object.cpp:290-301 *)
Definition dict_merge (m other : smap V) : smap V :=
  fold_left (fun acc e => sm_insert (fst e) (snd e) acc) other m.

(** DictionaryObject::Clear, dictionary_object.cpp:303-324 *)
Definition dict_clear (m : smap V) : smap V := [].
End Dict.

Section Arr.
Context {V : Type}.

(** MixedArrayObject::GetSize and GetValue (std::vector::at), mixed_array_object.h:42-46 *)
Definition arr_size (l : list V) : N := N.of_nat (length l).
Definition arr_get (l : list V) (at_ : N) : res V :=
  if at_ <? arr_size l then
    match nth_error l (N.to_nat at_) with Some v => Ok v | None => Undef end
  else Throw EStdRange.

(** MixedArrayObject::Append, mixed_array_object.cpp:75-80; push_back, 125-129 *)
Definition arr_append (l : list V) (v : V) : list V := l ++ [v].

(** MixedArrayObject::Insert, mixed_array_object.cpp:82-91 *)
Definition arr_insert (l : list V) (at_ : N) (v : V) : res (list V) :=
  if arr_size l <? at_ then Throw EGeneral
  else Ok (firstn (N.to_nat at_) l ++ v :: skipn (N.to_nat at_) l).

(** MixedArrayObject::Remove, mixed_array_object.cpp:93-106 *)
Definition arr_remove (l : list V) (at_ : N) : list V * bool :=
  if arr_size l <=? at_ then (l, false)
  else (firstn (N.to_nat at_) l ++ skipn (S (N.to_nat at_)) l, true).

(** MixedArrayObject::Clear, mixed_array_object.cpp:108-110 *)
Definition arr_clear (l : list V) : list V := [].

(** MixedArrayObject::SetValue, mixed_array_object.cpp:112-122 *)
Definition arr_set (l : list V) (at_ : N) (v : V) : res (list V) :=
  if arr_size l <=? at_ then Throw EGeneral
  else Ok (firstn (N.to_nat at_) l ++ v :: skipn (S (N.to_nat at_)) l).
End Arr.

(** One call on a dictionary, and what the caller sees. *)
Inductive dict_op (V : Type) : Type :=
| DInsert (k : bytes) (v : V) (overwrite : bool)
| DRemove (k : bytes)
| DClear
| DMerge (other : smap V).
Arguments DInsert {V} k v overwrite.
Arguments DRemove {V} k.
Arguments DClear {V}.
Arguments DMerge {V} other.

(** [Insert] that throws leaves the dictionary as it was; the answer is [Ok true] where the function returns nothing. *)
Definition dict_step {V : Type} (m : smap V) (o : dict_op V) : smap V * res bool :=
  match o with
  | DInsert k v ow =>
      match dict_insert m k v ow with
      | Ok m' => (m', Ok true)
      | Throw e => (m, Throw e)
      | Undef => (m, Undef)
      | NoFuel => (m, NoFuel)
      end
  | DRemove k => let '(m', b) := dict_remove m k in (m', Ok b)
  | DClear => (dict_clear m, Ok true)
  | DMerge other => (dict_merge m other, Ok true)
  end.

Fixpoint dict_run {V : Type} (m : smap V) (os : list (dict_op V)) : smap V * list (res bool) :=
  match os with
  | [] => (m, [])
  | o :: t => let '(m1, a) := dict_step m o in let '(m2, l) := dict_run m1 t in (m2, a :: l)
  end.

(** One call on an array. *)
Inductive arr_op (V : Type) : Type :=
| AAppend (v : V)
| AInsert (at_ : N) (v : V)
| ARemove (at_ : N)
| ASet (at_ : N) (v : V)
| AClear.
Arguments AAppend {V} v.
Arguments AInsert {V} at_ v.
Arguments ARemove {V} at_.
Arguments ASet {V} at_ v.
Arguments AClear {V}.

Definition arr_step {V : Type} (l : list V) (o : arr_op V) : list V * res bool :=
  match o with
  | AAppend v => (arr_append l v, Ok true)
  | AInsert i v => match arr_insert l i v with Ok l' => (l', Ok true) | Throw e => (l, Throw e) | _ => (l, Undef) end
  | ARemove i => let '(l', b) := arr_remove l i in (l', Ok b)
  | ASet i v => match arr_set l i v with Ok l' => (l', Ok true) | Throw e => (l, Throw e) | _ => (l, Undef) end
  | AClear => (arr_clear l, Ok true)
  end.

Fixpoint arr_run {V : Type} (l : list V) (os : list (arr_op V)) : list V * list (res bool) :=
  match os with
  | [] => (l, [])
  | o :: t => let '(l1, a) := arr_step l o in let '(l2, r) := arr_run l1 t in (l2, a :: r)
  end.

(** AttributeList (syntax/utils/object_attribute_list.cpp), an unordered_map from attribute type to attribute; types are
    numbers.  Iteration order is not modelled. *)
Section Attr.
Context {V : Type}.
Definition attrs := list (N * V).

Fixpoint at_find (t : N) (m : attrs) : option V :=
  match m with
  | [] => None
  | (t', v) :: r => if t' =? t then Some v else at_find t r
  end.

(** object_attribute_list.cpp:17-26 *)
Definition attr_contains (m : attrs) (t : N) : bool := match at_find t m with Some _ => true | None => false end.
(** object_attribute_list.cpp:28-36; unordered_map::insert keeps a present element *)
Definition attr_add (m : attrs) (t : N) (v : V) (overwrite : bool) : res attrs :=
  if negb overwrite && attr_contains m t then Throw EDuplicateKey
  else if attr_contains m t then Ok m else Ok ((t, v) :: m).
(** object_attribute_list.cpp:38-49 *)
Definition attr_remove (m : attrs) (t : N) : attrs * bool :=
  if attr_contains m t then (filter (fun e => negb (fst e =? t)) m, true) else (m, false).
(** object_attribute_list.cpp:51-58 *)
Definition attr_get (m : attrs) (t : N) : res V := match at_find t m with Some v => Ok v | None => Throw EGeneral end.
(** object_attribute_list.cpp:60-62 *)
Definition attr_clear (m : attrs) : attrs := [].
End Attr.
Arguments attrs V : clear implicits.

Inductive attr_op (V : Type) : Type :=
| TAdd (t : N) (v : V) (overwrite : bool)
| TRemove (t : N)
| TClear.
Arguments TAdd {V} t v overwrite.
Arguments TRemove {V} t.
Arguments TClear {V}.

Definition attr_step {V : Type} (m : attrs V) (o : attr_op V) : attrs V * res bool :=
  match o with
  | TAdd t v ow => match attr_add m t v ow with Ok m' => (m', Ok true) | Throw e => (m, Throw e) | _ => (m, Undef) end
  | TRemove t => let '(m', b) := attr_remove m t in (m', Ok b)
  | TClear => (attr_clear m, Ok true)
  end.

Fixpoint attr_run {V : Type} (m : attrs V) (os : list (attr_op V)) : attrs V * list (res bool) :=
  match os with
  | [] => (m, [])
  | o :: t => let '(m1, a) := attr_step m o in let '(m2, l) := attr_run m1 t in (m2, a :: l)
  end.

(** Objects as mutable cells: containment, change notification, dirty flags and cached hashes.

    An object is an identity ([nat]).  [node] holds what the code keeps per object:
    - [ncont]: the value (leaf value, array elements, dictionary entries, stream header);
    - [ninit]: IModifyObservable::m_initialized (utils/modify_observer_interface.h:37);
    - [ndirty]: Object::m_dirty (syntax/objects/object.h);
    - [ncache]: m_hash_cache of arrays, dictionaries and references (0 = not computed);
    - [nobs]: the observers (utils/observable_interface.h:76).
    Simplifications: dictionary keys are values (the key object cannot be edited in place); objects are never destroyed, so
    no observer is deactivated; the observer set (unordered_set of weak references) is a list without duplicates, notified
    in list order; owner pointers are not modelled; one thread. *)
From Coq Require Import List NArith ZArith Bool PeanoNat.
From Verif.Model Require Import Base SMap Containers.
Import ListNotations.

Inductive leaf : Type :=
| LNull
| LBool (b : bool)
| LNum (z : Z)                       (* the numeric backend; only its identity as a value matters here *)
| LName (n : bytes)
| LStr (v : bytes) (decoded : bool)  (* [decoded]: the value buffer is initialised, string_object.cpp:145-174 *)
| LRef (num gen : N).

Inductive content : Type :=
| CLeaf (l : leaf)
| CArr (items : list nat)
| CDict (m : smap nat)
| CStream (header : nat) (body : bytes).

Record node := { ncont : content; ninit : bool; ndirty : bool; ncache : N; nobs : list nat }.
Definition heap := nat -> node.

Definition children (c : content) : list nat :=
  match c with
  | CLeaf _ => []
  | CArr l => l
  | CDict m => map snd m
  | CStream h _ => [h]
  end.

Definition upd_node (h : heap) (x : nat) (n : node) : heap := fun y => if Nat.eqb y x then n else h y.
Definition set_cont (n : node) (c : content) : node :=
  {| ncont := c; ninit := ninit n; ndirty := ndirty n; ncache := ncache n; nobs := nobs n |}.
Definition set_dirty (n : node) : node :=
  {| ncont := ncont n; ninit := ninit n; ndirty := true; ncache := ncache n; nobs := nobs n |}.
Definition set_cache (n : node) (v : N) : node :=
  {| ncont := ncont n; ninit := ninit n; ndirty := ndirty n; ncache := v; nobs := nobs n |}.
Definition set_obs (n : node) (l : list nat) : node :=
  {| ncont := ncont n; ninit := ninit n; ndirty := ndirty n; ncache := ncache n; nobs := l |}.
Definition set_init (n : node) (b : bool) : node :=
  {| ncont := ncont n; ninit := b; ndirty := ndirty n; ncache := ncache n; nobs := nobs n |}.

(** IObservable::Subscribe, utils/observable_interface.h:12-22; the null object ignores it, null_object.h:29 *)
Definition subscribe (h : heap) (x observer : nat) : heap :=
  match ncont (h x) with
  | CLeaf LNull => h
  | _ => if in_dec Nat.eq_dec observer (nobs (h x)) then h
         else upd_node h x (set_obs (h x) (observer :: nobs (h x)))
  end.
(** IObservable::Unsubscribe, utils/observable_interface.h:24-37 *)
Definition unsubscribe (h : heap) (x observer : nat) : heap :=
  upd_node h x (set_obs (h x) (remove Nat.eq_dec observer (nobs (h x)))).

(** Object::OnChanged, object.cpp:216-223; IModifyObservable::OnChanged, modify_observer_interface.cpp:29-60; ObserveeChanged of
    every container calls OnChanged (dictionary_object.cpp:223-231, mixed_array_object.cpp:53-61, stream_object.cpp:49-70,
    indirect_reference_object.cpp:117-121).  The recursion has no bound in the code; [fuel] is its depth.  Resetting the cache of
    an object that has none is harmless. *)
Fixpoint on_changed (fuel : nat) (h : heap) (x : nat) {struct fuel} : res heap :=
  match fuel with
  | O => NoFuel
  | S f =>
      do h1 <- (if ninit (h x) then
                  fold_left (fun (acc : res heap) o => do h' <- acc;; on_changed f h' o)
                            (nobs (h x)) (Ok (upd_node h x (set_dirty (h x))))
                else Ok h);;
      Ok (upd_node h1 x (set_cache (h1 x) 0%N))
  end.

(** SetInitialized: object (modify_observer_interface.h:30-32), dictionary_object.cpp:45-53, mixed_array_object.cpp:43-51,
    stream_object.cpp:148-159.  [fuel]: nesting depth. *)
Fixpoint set_initialized (fuel : nat) (h : heap) (x : nat) (b : bool) {struct fuel} : res heap :=
  match fuel with
  | O => NoFuel
  | S f =>
      fold_left (fun (acc : res heap) c => do h' <- acc;; set_initialized f h' c b)
                (children (ncont (h x))) (Ok (upd_node h x (set_init (h x) b)))
  end.

(** BooleanObject::SetValue (boolean_object.cpp:16-19), NameObject::SetValue (name_object.cpp:84-89: the buffer notifies the
    name, then OnChanged again), IndirectReferenceObject setters (indirect_reference_object.cpp:44-60): the value changes, then
    OnChanged.  Simplification: the double notification of names is one notification. *)
Definition set_leaf (fuel : nat) (h : heap) (x : nat) (l : leaf) : res heap :=
  on_changed fuel (upd_node h x (set_cont (h x) (CLeaf l))) x.

(** IntegerObject/RealObject::SetValue (integer_object.h:81-107, real_object.h:45-47): the value is stored in the numeric backend,
    whose OnChanged (numeric_object.cpp:52-79) notifies the number only when the backend is initialised, and no code ever calls
    SetInitialized on a backend. *)
Definition set_number (h : heap) (x : nat) (z : Z) : heap := upd_node h x (set_cont (h x) (CLeaf (LNum z))).

(** LiteralStringObject::SetValue (string_object.cpp:176-181): the value buffer notifies the string only when it was initialised
    before, that is when the string was read or set earlier. *)
Definition set_string (fuel : nat) (h : heap) (x : nat) (v : bytes) : res heap :=
  let h1 := upd_node h x (set_cont (h x) (CLeaf (LStr v true))) in
  match ncont (h x) with
  | CLeaf (LStr _ true) => on_changed fuel h1 x
  | _ => Ok h1
  end.

(** MixedArrayObject operations with their effects on observers, mixed_array_object.cpp:75-129 *)
Definition array_append (fuel : nat) (h : heap) (x c : nat) : res heap :=
  match ncont (h x) with
  | CArr l => on_changed fuel (subscribe (upd_node h x (set_cont (h x) (CArr (arr_append l c)))) c x) x
  | _ => Undef
  end.
Definition array_insert (fuel : nat) (h : heap) (x : nat) (i : N) (c : nat) : res heap :=
  match ncont (h x) with
  | CArr l => do l' <- arr_insert l i c;; on_changed fuel (subscribe (upd_node h x (set_cont (h x) (CArr l'))) c x) x
  | _ => Undef
  end.
Definition array_set (fuel : nat) (h : heap) (x : nat) (i : N) (c : nat) : res heap :=
  match ncont (h x) with
  | CArr l => do l' <- arr_set l i c;; on_changed fuel (subscribe (upd_node h x (set_cont (h x) (CArr l'))) c x) x
  | _ => Undef
  end.
(** the element is unsubscribed before the list changes *)
Definition array_remove (fuel : nat) (h : heap) (x : nat) (i : N) : res heap :=
  match ncont (h x) with
  | CArr l =>
      match nth_error l (N.to_nat i) with
      | None => Ok h
      | Some c => let h1 := unsubscribe h c x in
                  on_changed fuel (upd_node h1 x (set_cont (h1 x) (CArr (fst (arr_remove l i))))) x
      end
  | _ => Undef
  end.
(** Clear: only the list, no notification, no unsubscription *)
Definition array_clear (h : heap) (x : nat) : res heap :=
  match ncont (h x) with
  | CArr l => Ok (upd_node h x (set_cont (h x) (CArr (arr_clear l))))
  | _ => Undef
  end.

(** DictionaryObject operations with their effects on observers, dictionary_object.cpp:149-206, 290-324 *)
Definition dictionary_insert (fuel : nat) (h : heap) (x : nat) (k : bytes) (c : nat) (overwrite : bool) : res heap :=
  match ncont (h x) with
  | CDict m => do m' <- dict_insert m k c overwrite;;
               on_changed fuel (subscribe (upd_node h x (set_cont (h x) (CDict m'))) c x) x
  | _ => Undef
  end.
Definition dictionary_remove (fuel : nat) (h : heap) (x : nat) (k : bytes) : res heap :=
  match ncont (h x) with
  | CDict m =>
      match dict_try_find m k with
      | None => Ok h
      | Some c => let h1 := unsubscribe h c x in
                  on_changed fuel (upd_node h1 x (set_cont (h1 x) (CDict (fst (dict_remove m k))))) x
      end
  | _ => Undef
  end.
Definition dictionary_merge (fuel : nat) (h : heap) (x y : nat) : res heap :=
  match ncont (h x), ncont (h y) with
  | CDict m, CDict m2 => on_changed fuel (upd_node h x (set_cont (h x) (CDict (dict_merge m m2)))) x
  | _, _ => Undef
  end.
Definition dictionary_clear (fuel : nat) (h : heap) (x : nat) : res heap :=
  match ncont (h x) with
  | CDict m =>
      let h1 := fold_left (fun h' c => unsubscribe h' c x) (map snd m) h in
      on_changed fuel (upd_node h1 x (set_cont (h1 x) (CDict (dict_clear m)))) x
  | _ => Undef
  end.

(** StreamObject::SetHeader and SetBody, stream_object.cpp:76-93 *)
Definition stream_set_header (fuel : nat) (h : heap) (x c : nat) : res heap :=
  match ncont (h x) with
  | CStream old b =>
      let h1 := subscribe (unsubscribe h old x) c x in
      on_changed fuel (upd_node h1 x (set_cont (h1 x) (CStream c b))) x
  | _ => Undef
  end.
Definition stream_set_body (fuel : nat) (h : heap) (x : nat) (b : bytes) : res heap :=
  match ncont (h x) with
  | CStream c _ => on_changed fuel (upd_node h x (set_cont (h x) (CStream c b))) x
  | _ => Undef
  end.

(** Hash functions.  [hl] is the hash of a leaf value, [hk] of a key (Buffer::Hash, buffer.cpp:17-27). *)
Section Hash.
Variable hl : leaf -> N.
Variable hk : bytes -> N.

(** the loop over the elements: threads the heap, because hashing an element fills its cache *)
Fixpoint hash_items (hash : heap -> nat -> res (heap * N)) (h : heap) (acc : N) (l : list (N * nat)) : res (heap * N) :=
  match l with
  | [] => Ok (h, acc)
  | (k, c) :: t => do '(h1, v) <- hash h c;; hash_items hash h1 (N.lxor (N.lxor acc k) v) t
  end.

(** MixedArrayObject::Hash (mixed_array_object.cpp:183-195), DictionaryObject::Hash (dictionary_object.cpp:233-248),
    IndirectReferenceObject::Hash (indirect_reference_object.cpp:123-138), StreamObject::Hash (stream_object.cpp:613-616), leaves.
    Simplification: a string whose value was not decoded yet is hashed by its value, and marked decoded (GetValue). *)
Fixpoint hash (fuel : nat) (h : heap) (x : nat) {struct fuel} : res (heap * N) :=
  match fuel with
  | O => NoFuel
  | S f =>
      match ncont (h x) with
      | CLeaf (LRef a b) =>
          if N.eqb (ncache (h x)) 0 then
            let v := hl (LRef a b) in Ok (upd_node h x (set_cache (h x) v), v)
          else Ok (h, ncache (h x))
      | CLeaf (LStr s _) => Ok (upd_node h x (set_cont (h x) (CLeaf (LStr s true))), hl (LStr s true))
      | CLeaf l => Ok (h, hl l)
      | CArr l =>
          if N.eqb (ncache (h x)) 0 then
            do '(h1, v) <- hash_items (hash f) h 0%N (map (fun c => (0%N, c)) l);;
            Ok (upd_node h1 x (set_cache (h1 x) v), v)
          else Ok (h, ncache (h x))
      | CDict m =>
          if N.eqb (ncache (h x)) 0 then
            do '(h1, v) <- hash_items (hash f) h 0%N (map (fun e => (hk (fst e), snd e)) m);;
            Ok (upd_node h1 x (set_cache (h1 x) v), v)
          else Ok (h, ncache (h x))
      | CStream c _ => hash f h c
      end
  end.
End Hash.

(** One call. *)
Inductive heap_op : Type :=
| OSetInit (x : nat) (b : bool)
| OSetLeaf (x : nat) (l : leaf)
| OSetNumber (x : nat) (z : Z)
| OSetString (x : nat) (v : bytes)
| OArrAppend (x c : nat)
| OArrInsert (x : nat) (i : N) (c : nat)
| OArrSet (x : nat) (i : N) (c : nat)
| OArrRemove (x : nat) (i : N)
| OArrClear (x : nat)
| ODictInsert (x : nat) (k : bytes) (c : nat) (overwrite : bool)
| ODictRemove (x : nat) (k : bytes)
| ODictMerge (x y : nat)
| ODictClear (x : nat)
| OStreamHeader (x c : nat)
| OStreamBody (x : nat) (b : bytes)
| OHash (x : nat).

(** The object a call edits. *)
Definition edited (o : heap_op) : option nat :=
  match o with
  | OSetInit _ _ | OHash _ => None
  | OSetLeaf x _ | OSetNumber x _ | OSetString x _ | OArrAppend x _ | OArrInsert x _ _ | OArrSet x _ _ | OArrRemove x _
  | OArrClear x | ODictInsert x _ _ _ | ODictRemove x _ | ODictMerge x _ | ODictClear x | OStreamHeader x _ | OStreamBody x _ => Some x
  end.

Definition heap_step (hl : leaf -> N) (hk : bytes -> N) (fuel : nat) (h : heap) (o : heap_op) : res heap :=
  match o with
  | OSetInit x b => set_initialized fuel h x b
  | OSetLeaf x l => set_leaf fuel h x l
  | OSetNumber x z => Ok (set_number h x z)
  | OSetString x v => set_string fuel h x v
  | OArrAppend x c => array_append fuel h x c
  | OArrInsert x i c => array_insert fuel h x i c
  | OArrSet x i c => array_set fuel h x i c
  | OArrRemove x i => array_remove fuel h x i
  | OArrClear x => array_clear h x
  | ODictInsert x k c ow => dictionary_insert fuel h x k c ow
  | ODictRemove x k => dictionary_remove fuel h x k
  | ODictMerge x y => dictionary_merge fuel h x y
  | ODictClear x => dictionary_clear fuel h x
  | OStreamHeader x c => stream_set_header fuel h x c
  | OStreamBody x b => stream_set_body fuel h x b
  | OHash x => do '(h1, _) <- hash hl hk fuel h x;; Ok h1
  end.

(** The iterators of the interface and the collections they run over: utils/base_iterator.h, and implementation/syntax/c_dictionary_object.cpp,
    c_xref.cpp and implementation/contents/c_content_instruction.cpp.

    An iterator object holds two iterators of the standard library, the current one and the end (base_iterator.h:29-31), and nothing
    that keeps the collection.  Which of them stay usable after a change is what the C++ standard says for std::map, std::unordered_set and
    std::vector; using one that does not, stepping beyond the end, or looking at the end, is [Undef].

    Simplifications: the elements of a dictionary and of a cross-reference section are named by their keys; reference counts other than
    that of the collection are left out (C08). *)
From Coq Require Import List NArith ZArith Bool Permutation.
From Verif.Model Require Import Base Token SMap.
Import ListNotations.

Section Walk.
Variables C K E : Type.
Variable items : C -> list K.              (* in the order of iteration *)
Variable eqb : K -> K -> bool.
Variable apply : E -> C -> C.              (* a change of the collection *)
Variable spoils : E -> C -> option K -> bool.   (* that makes an iterator at this element ([None]: the end) unusable *)

(** [it_at]: the element of m_current, [None] when it equals m_invalid; [it_usable]: both of them can still be used *)
Record iter : Type := { it_at : option K; it_usable : bool }.
(** DictionaryObject_GetIterator, c_dictionary_object.cpp:81-94; Xref_GetIterator, c_xref.cpp:111-124;
    ContentInstructionCollection_GetIterator, c_content_instruction.cpp:119-131 *)
Definition get_iterator (c : C) : iter := {| it_at := hd_error (items c); it_usable := true |}.
(** BaseIterator::IsValid, base_iterator.h:54-57 *)
Definition is_valid (it : iter) : res bool := if it_usable it then Ok (match it_at it with Some _ => true | None => false end) else Undef.
(** BaseIterator::Value, base_iterator.h:39-42, and First and Second of DictionaryObjectBase::Iterator, dictionary_object.h:49-55 *)
Definition value (it : iter) : res K := if it_usable it then match it_at it with Some k => Ok k | None => Undef end else Undef.
(** operator++ of the iterators, dictionary_object.h:38-41, xref.h:35-38, content_stream_instruction_base.h:52-55 *)
Fixpoint following (k : K) (l : list K) : option K :=
  match l with
  | [] => None
  | x :: t => if eqb x k then hd_error t else following k t
  end.
Definition next (c : C) (it : iter) : res iter :=
  if it_usable it then match it_at it with Some k => Ok {| it_at := following k (items c); it_usable := true |} | None => Undef end else Undef.

(** What a program does to the collection while it iterates: changes, and releasing the last reference to it *)
Inductive action : Type :=
| Change (e : E)
| Release.
Definition act (a : action) (s : C * iter) : C * iter :=
  let '(c, it) := s in
  match a with
  | Change e => (apply e c, {| it_at := it_at it; it_usable := it_usable it && negb (spoils e c (it_at it)) && negb (spoils e c None) |})
  | Release => (c, {| it_at := it_at it; it_usable := false |})
  end.
(** The loop [for (it = GetIterator; IsValid; Next) { v = Value; body }]: what the body does may depend on the number of the round and on
    the element.  The elements that were visited, the collection at last, and whether the end was reached in [fuel] rounds. *)
Fixpoint rounds (fuel : nat) (body : nat -> K -> list action) (i : nat) (c : C) (it : iter) : list K * C * res bool :=
  match is_valid it with
  | Ok false => ([], c, Ok true)
  | Ok true =>
      match fuel with
      | O => ([], c, Ok false)
      | S fuel' =>
          match value it with
          | Ok k =>
              let '(c1, it1) := fold_left (fun s a => act a s) (body i k) (c, it) in
              match next c1 it1 with
              | Ok it2 => let '(ks, c2, r) := rounds fuel' body (S i) c1 it2 in (k :: ks, c2, r)
              | Throw e => ([k], c1, Throw e)
              | Undef => ([k], c1, Undef)
              | NoFuel => ([k], c1, NoFuel)
              end
          | Throw e => ([], c, Throw e)
          | Undef => ([], c, Undef)
          | NoFuel => ([], c, NoFuel)
          end
      end
  | Throw e => ([], c, Throw e)
  | Undef => ([], c, Undef)
  | NoFuel => ([], c, NoFuel)
  end.
Definition loop (fuel : nat) (body : nat -> K -> list action) (c : C) : list K * C * res bool := rounds fuel body 0 c (get_iterator c).
End Walk.
Arguments Change {E} _. Arguments Release {E}.
Arguments it_at {K} _. Arguments it_usable {K} _.

(** Dictionaries: std::map (dictionary_object.h:22).  Insertion keeps all iterators, removal those of other elements.
    [DPut]: DictionaryObject::Insert, dictionary_object.cpp:180-206.  [DDel]: Remove, 149-173.  [DClear]: Clear, 303-324. *)
Inductive dict_edit : Type := DPut (k : bytes) | DDel (k : bytes) | DClear.
Definition dict_items (m : smap unit) : list bytes := map fst m.
Definition dict_apply (e : dict_edit) (m : smap unit) : smap unit :=
  match e with DPut k => sm_insert k tt m | DDel k => sm_remove k m | DClear => [] end.
Definition dict_spoils (e : dict_edit) (m : smap unit) (p : option bytes) : bool :=
  match e, p with
  | DPut _, _ => false
  | DDel k, Some k' => bytes_eqb k k'
  | DClear, Some _ => true
  | _, None => false
  end.
Definition dict_loop := loop (smap unit) bytes dict_edit dict_items bytes_eqb dict_apply dict_spoils.

(** Cross-reference sections: std::unordered_set (xref.h:20).  [t_buckets]: the number of elements that fit without a rehash.
    [TAdd]: XrefBase::Add, xref.cpp:245-271, which replaces an entry of the same number.  [TDel]: Remove, 273-291.  [TClear]: 332-334.
    [place] and [shuffle] stand for the position of a new element and for the order after a rehash. *)
Record table : Type := { t_items : list N; t_buckets : nat }.
Inductive table_edit : Type := TAdd (n : N) | TDel (n : N) | TClear.
Definition put_at {A} (i : nat) (x : A) (l : list A) : list A := firstn i l ++ x :: skipn i l.
Section Table.
Variable place : list N -> N -> nat.
Variable shuffle : list N -> list N.
Variable grow : nat -> nat.
Definition without (n : N) (l : list N) : list N := filter (fun m => negb (N.eqb m n)) l.
Definition rehashes (n : N) (t : table) : bool := negb (existsb (N.eqb n) (t_items t)) && Nat.ltb (t_buckets t) (S (List.length (t_items t))).
Definition table_apply (e : table_edit) (t : table) : table :=
  match e with
  | TAdd n =>
      let l := without n (t_items t) in
      if rehashes n t then {| t_items := shuffle (n :: l); t_buckets := grow (t_buckets t) |}
      else {| t_items := put_at (place l n) n l; t_buckets := t_buckets t |}
  | TDel n => {| t_items := without n (t_items t); t_buckets := t_buckets t |}
  | TClear => {| t_items := []; t_buckets := t_buckets t |}
  end.
Definition table_spoils (e : table_edit) (t : table) (p : option N) : bool :=
  match e, p with
  | TAdd n, Some k => rehashes n t || N.eqb n k
  | TAdd n, None => rehashes n t
  | TDel n, Some k => N.eqb n k
  | TDel n, None => false
  | TClear, Some _ => true
  | TClear, None => false
  end.
Definition table_loop := loop table N table_edit t_items N.eqb table_apply table_spoils.
End Table.

(** Instructions of a content stream: std::vector (content_stream_instruction_base.h:28).  Every insertion and removal makes the past-the-end
    iterator unusable, which every test for the end uses.
    c_content_instruction.cpp:74-117; a position beyond the end is [Undef] there already (C57) and left out. *)
Inductive list_edit : Type := LAppend (x : nat) | LInsert (i : nat) (x : nat) | LRemove (i : nat) | LClear.
Definition list_apply (e : list_edit) (l : list nat) : list nat :=
  match e with
  | LAppend x => l ++ [x]
  | LInsert i x => put_at i x l
  | LRemove i => firstn i l ++ skipn (S i) l
  | LClear => []
  end.
Definition list_items (l : list nat) : list (nat * nat) := combine (seq 0 (List.length l)) l.   (* with positions: an instruction may occur twice *)
Definition list_spoils (e : list_edit) (l : list nat) (p : option (nat * nat)) : bool := true.
Definition list_loop := loop (list nat) (nat * nat) list_edit list_items (fun a b => Nat.eqb (fst a) (fst b)) list_apply list_spoils.

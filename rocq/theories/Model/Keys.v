(** Name handles that a program holds and the dictionaries whose keys they are: syntax/objects/name_object.cpp,
    syntax/objects/dictionary_object.cpp, implementation/syntax/c_name_object.cpp and c_dictionary_object.cpp.

    A NameObject holds a reference to a Buffer (name_object.h:44).  Copying a NameObject copies the reference (the copy constructor of
    name_object.h:13-45 is the implicit one), so DictionaryObject::Insert, Find, Remove and Contains with a [const NameObject&]
    (dictionary_object.cpp:109-112, 144-147, 175-178, 208-211) work with a new name that has the same buffer as the one passed.  What matters
    for a name is therefore the buffer it refers to, and a key is the number of a buffer here.

    Simplification: owners, observers and the change flags are left out (Model/Heap.v). *)
From Coq Require Import List NArith ZArith Bool.
From Verif.Model Require Import Base SMap.
Import ListNotations.

(** std::map<NameObjectPtr, ContainableObjectPtr> as the search tree it is: key and value (an identity) of each element.  The order of
    the elements is the one at the time they were inserted; nothing moves them when the text of a key changes. *)
Inductive tree : Type :=
| Leaf
| Node (l : tree) (key value : nat) (r : tree).
(** in the order of iteration (dictionary_object.h:34-58) *)
Fixpoint elements (t : tree) : list (nat * nat) :=
  match t with
  | Leaf => []
  | Node l k v r => elements l ++ (k, v) :: elements r
  end.
Fixpoint size (t : tree) : nat := match t with Leaf => 0 | Node l _ _ r => size l + 1 + size r end.

(** the buffers, the name handles of the program (with the buffer of each) and the dictionaries *)
Record world : Type := { w_texts : list bytes; w_names : list nat; w_dicts : list tree }.
Definition text (w : world) (b : nat) : bytes := nth b (w_texts w) [].

Section Map.
Variable tx : nat -> bytes.
(** std::map::lower_bound: the number of elements that are passed, found on the way down; operator< of names is that of their texts
    (name_object.cpp:187-201) *)
Fixpoint lower_bound (k : bytes) (t : tree) : nat :=
  match t with
  | Leaf => 0
  | Node l x _ r => if buffer_ltb (tx x) k then size l + 1 + lower_bound k r else lower_bound k l
  end.
(** std::map::find: position and element *)
Definition find_key (k : bytes) (t : tree) : option (nat * (nat * nat)) :=
  let i := lower_bound k t in
  match nth_error (elements t) i with
  | Some (x, v) => if buffer_ltb k (tx x) then None else Some (i, (x, v))
  | None => None
  end.
(** std::map::insert: the way down and the comparison with the element before the place found; [None] if there is an equal element *)
Fixpoint insert_key (k : nat) (v : nat) (before : option nat) (t : tree) : option tree :=
  match t with
  | Leaf =>
      match before with
      | None => Some (Node Leaf k v Leaf)
      | Some p => if buffer_ltb (tx p) (tx k) then Some (Node Leaf k v Leaf) else None
      end
  | Node l x y r =>
      if buffer_ltb (tx k) (tx x) then match insert_key k v before l with Some l' => Some (Node l' x y r) | None => None end
      else match insert_key k v (Some x) r with Some r' => Some (Node l x y r') | None => None end
  end.
End Map.

(** std::map::erase of the element at a position *)
Fixpoint join (l r : tree) : tree := match l with Leaf => r | Node a k v b => Node a k v (join b r) end.
Fixpoint remove_at (i : nat) (t : tree) : tree :=
  match t with
  | Leaf => Leaf
  | Node l k v r =>
      if Nat.ltb i (size l) then Node (remove_at i l) k v r
      else if Nat.eqb i (size l) then join l r
      else Node l k v (remove_at (i - size l - 1) r)
  end.

(** What a program can do; handles and dictionaries are counted from 0 in the order they were made.
    [NewName]: NameObject_CreateFromDecodedString, c_name_object.cpp:34-44.
    [SetName]: NameObject_SetValue, c_name_object.cpp:61-73, and Buffer_SetData (c_buffer.cpp:45-56) on the buffer that
    NameObject_GetValue (c_name_object.cpp:46-59) hands out, which is that of the name.
    [NewDict]: DictionaryObject_Create, c_dictionary_object.cpp:11-21.
    [Put]: DictionaryObject_Insert and DictionaryObject_InsertConst, c_dictionary_object.cpp:201-239.
    [Get]: DictionaryObject_Find and TryFind, 32-79.  [Del]: DictionaryObject_Remove, 177-189.  [Clear]: DictionaryObject_Clear, 191-199.
    [KeyAt]: DictionaryObjectIterator_GetKey, 123-138, after as many steps: a handle for the key itself.
    [Show]: the whole iteration, keys and values. *)
Inductive op : Type :=
| NewName (t : bytes)
| SetName (h : nat) (t : bytes)
| NewDict
| Put (d h v : nat) (overwrite : bool)
| Get (d h : nat)
| Del (d h : nat)
| Clear (d : nat)
| KeyAt (d i : nat)
| Show (d : nat).
(** what it sees *)
Inductive out : Type :=
| ODone
| OFound (v : option nat)
| OBoolean (b : bool)
| OThrow (e : exn)
| OList (l : list (bytes * nat))
| OBadHandle.

Definition set_dict (w : world) (d : nat) (t : tree) : world :=
  {| w_texts := w_texts w; w_names := w_names w; w_dicts := firstn d (w_dicts w) ++ t :: skipn (S d) (w_dicts w) |}.

Section Run.
(** the rotations that std::map carries out after insertion and removal *)
Variable rebalance : tree -> tree.

(** one call; an index that was never handed out is answered with [OBadHandle] and changes nothing *)
Definition step (w : world) (o : op) : world * out :=
  match o with
  | NewName t =>
      ({| w_texts := w_texts w ++ [t]; w_names := w_names w ++ [List.length (w_texts w)]; w_dicts := w_dicts w |}, ODone)
  | SetName h t =>
      match nth_error (w_names w) h with
      | None => (w, OBadHandle)
      | Some b =>
          ({| w_texts := firstn b (w_texts w) ++ t :: skipn (S b) (w_texts w); w_names := w_names w; w_dicts := w_dicts w |}, ODone)
      end
  | NewDict => ({| w_texts := w_texts w; w_names := w_names w; w_dicts := w_dicts w ++ [Leaf] |}, ODone)
  | Put d h v overwrite =>
      (* DictionaryObject::Insert, dictionary_object.cpp:180-206 *)
      match nth_error (w_dicts w) d, nth_error (w_names w) h with
      | Some t, Some b =>
          if negb overwrite && (match find_key (text w) (text w b) t with Some _ => true | None => false end) then (w, OThrow EDuplicateKey)
          else match insert_key (text w) b v None t with Some t' => (set_dict w d (rebalance t'), ODone) | None => (w, ODone) end
      | _, _ => (w, OBadHandle)
      end
  | Get d h =>
      match nth_error (w_dicts w) d, nth_error (w_names w) h with
      | Some t, Some b => (w, OFound (match find_key (text w) (text w b) t with Some (_, (_, v)) => Some v | None => None end))
      | _, _ => (w, OBadHandle)
      end
  | Del d h =>
      (* DictionaryObject::Remove, dictionary_object.cpp:149-173 *)
      match nth_error (w_dicts w) d, nth_error (w_names w) h with
      | Some t, Some b =>
          match find_key (text w) (text w b) t with
          | Some (i, _) => (set_dict w d (rebalance (remove_at i t)), OBoolean true)
          | None => (w, OBoolean false)
          end
      | _, _ => (w, OBadHandle)
      end
  | Clear d =>
      match nth_error (w_dicts w) d with
      | Some _ => (set_dict w d Leaf, ODone)
      | None => (w, OBadHandle)
      end
  | KeyAt d i =>
      match nth_error (w_dicts w) d with
      | Some t =>
          match nth_error (elements t) i with
          | Some (b, _) => ({| w_texts := w_texts w; w_names := w_names w ++ [b]; w_dicts := w_dicts w |}, ODone)
          | None => (w, OBadHandle)
          end
      | None => (w, OBadHandle)
      end
  | Show d =>
      match nth_error (w_dicts w) d with
      | Some t => (w, OList (map (fun e => (text w (fst e), snd e)) (elements t)))
      | None => (w, OBadHandle)
      end
  end.
Fixpoint run (w : world) (l : list op) : world * list out :=
  match l with
  | [] => (w, [])
  | o :: r => let '(w1, x) := step w o in let '(w2, xs) := run w1 r in (w2, x :: xs)
  end.
End Run.

Definition empty_world : world := {| w_texts := []; w_names := []; w_dicts := [] |}.

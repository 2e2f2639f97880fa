(** Name trees and number trees: semantics/objects/tree.h and tree.cpp.

    The class is a template over the key type; so is the model: [lt] is the order the std::map of the tree uses, [as_key] is
    ObjectUtils::ConvertTo<KeyT> of an element of the array, [of_key] the key as an element.  Nodes below the root are objects of
    the file, given by their numbers.  Limits are only present or absent; they are never looked at (the functions that would,
    ContainsInternal and FindInternal, tree.h:455-569, are not called by anything).  Remove (tree.h:382-391) compares the number of
    erased elements with an iterator, and so can only stand in the header as long as nothing calls it; it is not modelled. *)
From Coq Require Import List NArith ZArith Bool.
From Verif.Model Require Import Base SMap Object.
Import ListNotations.
Local Open Scope N_scope.

Section Tree.
Context {K V : Type}.
Variable lt : K -> K -> bool.
Variable as_key : V -> option K.
Variable of_key : K -> V.
Variable number_tree : bool.    (* the name of the values is Nums instead of Names, GetValueName, tree.h:594-597 and 628-631 *)

(** std::map *)
Fixpoint om_find (k : K) (m : list (K * V)) : option V :=
  match m with
  | [] => None
  | (k', v) :: t => if lt k k' then None else if lt k' k then om_find k t else Some v
  end.
Fixpoint om_insert (k : K) (v : V) (m : list (K * V)) : list (K * V) :=
  match m with
  | [] => [(k, v)]
  | (k', v') :: t =>
      if lt k k' then (k, v) :: m
      else if lt k' k then (k', v') :: om_insert k v t
      else m
  end.
(** insert(begin, end) *)
Definition om_insert_all (m other : list (K * V)) : list (K * V) := fold_left (fun m e => om_insert (fst e) (snd e) m) other m.

Record tnode : Type := TNode {
  t_kids : option (list N);
  t_limits : bool;
  t_names : option (list V);
  t_nums : option (list V)
}.
Definition theap := N -> option tnode.
Definition values (n : tnode) : option (list V) := if number_tree then t_nums n else t_names n.

Inductive tkind : Type := KRoot | KIntermediate | KLeaf.

(** TreeNodeBase::Create, tree.cpp:18-38 *)
Definition create (n : tnode) : res tkind :=
  match t_kids n, t_limits n, t_names n with
  | Some _, false, None => Ok KRoot
  | Some _, true, None => Ok KIntermediate
  | None, true, Some _ => Ok KLeaf
  | _, _, _ => Throw EGeneral
  end.
(** an element of Kids as a dictionary, and its node *)
Definition kid_at (h : theap) (k : N) : res (tkind * tnode) :=
  match h k with
  | Some n => do ty <- create n;; Ok (ty, n)
  | None => Throw EConversion
  end.

(** TreeBase::InsertPairsToMap, tree.h:393-408 *)
Fixpoint insert_pairs (m : list (K * V)) (l : list V) {struct l} : res (list (K * V)) :=
  match l with
  | k :: (v :: rest) =>
      match as_key k with
      | Some k' => insert_pairs (om_insert k' v m) rest
      | None => Throw EConversion
      end
  | _ => Ok m
  end.

(** TreeBase::GetAllKeys, tree.h:410-453 *)
Fixpoint kids_keys (rec : tkind -> tnode -> res (list (K * V))) (h : theap) (m : list (K * V)) (ks : list N) : res (list (K * V)) :=
  match ks with
  | [] => Ok m
  | k :: rest =>
      do kn <- kid_at h k;;
      do kid_map <- rec (fst kn) (snd kn);;
      kids_keys rec h (om_insert_all m kid_map) rest
  end.
Fixpoint all_keys (fuel : nat) (h : theap) (ty : tkind) (n : tnode) {struct fuel} : res (list (K * V)) :=
  match fuel with
  | O => NoFuel
  | S f =>
      match ty with
      | KRoot =>
          do m <- match t_kids n with Some ks => kids_keys (all_keys f h) h [] ks | None => Ok [] end;;
          match values n with Some l => insert_pairs m l | None => Ok m end
      | KIntermediate => match t_kids n with Some ks => kids_keys (all_keys f h) h [] ks | None => Throw EGeneral end
      | KLeaf => match values n with Some l => insert_pairs [] l | None => Throw EGeneral end
      end
  end.

(** The tree object: its dictionary, its map and m_initialized, tree.h:105-108; and the other objects of the file. *)
Record tree : Type := { t_root : tnode; t_map : list (K * V); t_init : bool; t_heap : theap }.
Definition open_tree (h : theap) (root : tnode) : tree := {| t_root := root; t_map := []; t_init := false; t_heap := h |}.

(** TreeBase::Initialize, tree.h:254-262 *)
Definition initialize (fuel : nat) (t : tree) : tree * res unit :=
  if t_init t then (t, Ok tt)
  else match all_keys fuel (t_heap t) KRoot (t_root t) with
       | Ok m => ({| t_root := t_root t; t_map := m; t_init := true; t_heap := t_heap t |}, Ok tt)
       | Throw e => (t, Throw e)
       | Undef => (t, Undef)
       | NoFuel => (t, NoFuel)
       end.

(** TreeBase::Contains and Find, tree.h:354-370 *)
Definition contains (fuel : nat) (t : tree) (k : K) : tree * res bool :=
  match initialize fuel t with
  | (t', Ok _) => (t', Ok (match om_find k (t_map t') with Some _ => true | None => false end))
  | (t', Throw e) => (t', Throw e)
  | (t', Undef) => (t', Undef)
  | (t', NoFuel) => (t', NoFuel)
  end.
Definition find (fuel : nat) (t : tree) (k : K) : tree * res V :=
  match initialize fuel t with
  | (t', Ok _) => (t', match om_find k (t_map t') with Some v => Ok v | None => Throw EGeneral end)
  | (t', Throw e) => (t', Throw e)
  | (t', Undef) => (t', Undef)
  | (t', NoFuel) => (t', NoFuel)
  end.

(** TreeBase::ReleaseNode, tree.h:264-296: the entries of the nodes are released, and later lookups of the number give null
    (xref_entry.cpp:107-115, 125-148) *)
Definition drop (h : theap) (k : N) : theap := fun m => if m =? k then None else h m.
Fixpoint release_kids (rec : theap -> N -> theap * res unit) (h : theap) (ks : list N) : theap * res unit :=
  match ks with
  | [] => (h, Ok tt)
  | k :: rest =>
      match rec h k with
      | (h', Ok _) => release_kids rec h' rest
      | other => other
      end
  end.
Fixpoint release_node (fuel : nat) (h : theap) (k : N) {struct fuel} : theap * res unit :=
  match fuel with
  | O => (h, NoFuel)
  | S f =>
      match kid_at h k with
      | Ok (KLeaf, _) => (drop h k, Ok tt)
      | Ok (KIntermediate, n) =>
          match t_kids n with
          | Some ks => match release_kids (release_node f) h ks with
                       | (h', Ok _) => (drop h' k, Ok tt)
                       | other => other
                       end
          | None => (h, Throw EGeneral)
          end
      | Ok (KRoot, _) => (h, Ok tt)
      | Throw e => (h, Throw e)
      | Undef => (h, Undef)
      | NoFuel => (h, NoFuel)
      end
  end.

(** TreeBase::RemoveAllChilds, tree.h:298-311: the Kids entry itself stays *)
Definition without_values (n : tnode) : tnode :=
  if number_tree then TNode (t_kids n) (t_limits n) (t_names n) None else TNode (t_kids n) (t_limits n) None (t_nums n).
Definition with_values (n : tnode) (l : list V) : tnode :=
  if number_tree then TNode (t_kids n) (t_limits n) (t_names n) (Some l) else TNode (t_kids n) (t_limits n) (Some l) (t_nums n).
Definition with_limits (n : tnode) : tnode := TNode (t_kids n) true (t_names n) (t_nums n).

Definition remove_all_childs (fuel : nat) (t : tree) : tree * res unit :=
  let '(h, r) := match t_kids (t_root t) with
                 | Some ks => release_kids (release_node fuel) (t_heap t) ks
                 | None => (t_heap t, Ok tt)
                 end in
  match r with
  | Ok _ => ({| t_root := match values (t_root t) with Some _ => without_values (t_root t) | None => t_root t end;
                t_map := t_map t; t_init := t_init t; t_heap := h |}, Ok tt)
  | other => ({| t_root := t_root t; t_map := t_map t; t_init := t_init t; t_heap := h |}, other)
  end.

(** TreeBase::Rebuild, tree.h:313-352; DictionaryObject::Insert refuses a key that is there (dictionary_object.cpp:180-206) *)
Definition flatten (m : list (K * V)) : list V := flat_map (fun e => [of_key (fst e); snd e]) m.
Definition rebuild (fuel : nat) (t : tree) : tree * res unit :=
  match initialize fuel t with
  | (t0, Ok _) =>
      match remove_all_childs fuel t0 with
      | (t1, Ok _) =>
          let leaf_values := flatten (t_map t1) in
          if (negb (match leaf_values with [] => true | _ => false end)) && t_limits (t_root t1) then (t1, Throw EDuplicateKey)
          else
            let root2 := match leaf_values with [] => t_root t1 | _ => with_limits (t_root t1) end in
            initialize fuel {| t_root := with_values root2 leaf_values; t_map := t_map t1; t_init := false; t_heap := t_heap t1 |}
      | other => other
      end
  | other => other
  end.

(** TreeBase::Insert, tree.h:372-380 *)
Definition insert (fuel : nat) (t : tree) (k : K) (v : V) : tree * res unit :=
  match initialize fuel t with
  | (t0, Ok _) => rebuild fuel {| t_root := t_root t0; t_map := om_insert k v (t_map t0); t_init := t_init t0; t_heap := t_heap t0 |}
  | other => other
  end.
End Tree.
Arguments tnode V : clear implicits.
Arguments theap V : clear implicits.
Arguments tree K V : clear implicits.

(** NameTree: the map is ordered by the contents of the strings (operator< of Deferred<StringObjectBase>, string_object.h:29 and 121-123;
    Buffer::LessThan).  Whether a key is a literal or a hexadecimal string is not kept. *)
Definition name_as_key (o : obj) : option bytes := match o with OLit s | OHex s => Some s | _ => None end.
Definition name_of_key (k : bytes) : obj := OLit k.

(** NumberTree: there is no operator< for Deferred<IntegerObject>; the one for ObjectPtr is used, which compares addresses
    (object.cpp:304-306).  An object is given with its address. *)
Definition addressed : Type := (N * obj)%type.
Definition number_key : Type := (N * Z)%type.
Definition number_lt (a b : number_key) : bool := fst a <? fst b.
Definition number_as_key (o : addressed) : option number_key := match o with (a, OInt z) => Some (a, z) | _ => None end.
Definition number_of_key (k : number_key) : addressed := (fst k, OInt (snd k)).

Definition name_find := find buffer_ltb name_as_key false.
Definition name_contains := contains buffer_ltb name_as_key false.
Definition name_insert := insert buffer_ltb name_as_key name_of_key false.
Definition number_find := find number_lt number_as_key true.
Definition number_contains := contains number_lt number_as_key true.

(** PageLabels::Contains and Find, semantics/objects/page_labels.cpp:68-76: the key is a new object at the address [a] *)
Definition label_contains (fuel : nat) (t : tree number_key addressed) (a : N) (page : Z) := number_contains fuel t (a, page).
Definition label_find (fuel : nat) (t : tree number_key addressed) (a : N) (page : Z) := number_find fuel t (a, page).

(** Appending a document to another one: Document::AppendDocument, semantics/objects/document.cpp.

    Simplifications: the objects of a file are a list of values (Model/Equality.v); dictionaries are lists of entries whose order does
    not matter; the nodes of page trees are indirect dictionaries of generation 0 whose Kids are direct arrays of references and whose
    Count is a direct integer; the destination has a page tree.  Named destinations are those of the catalog's Dests dictionary, kept
    apart from the objects with only the page of each; the ones of name trees are in Model/StringDests.v; initialization
    of strings and streams (ForceObjectInitialization) is left out. *)
From Coq Require Import List NArith ZArith Bool String.
From Verif.Model Require Import Base Arith Token Buffer Equality Duplicates DeepCopy PageTree.
Import ListNotations.
Local Open Scope N_scope.

(** DictionaryObject::Find, Remove, and Insert after Remove (dictionary_object.cpp) *)
Definition entries := list (bytes * value).
Fixpoint entry_get (k : bytes) (l : entries) : option value :=
  match l with
  | [] => None
  | (k', v) :: t => if bytes_eqb k' k then Some v else entry_get k t
  end.
Definition entry_del (k : bytes) (l : entries) : entries := filter (fun e => negb (bytes_eqb (fst e) k)) l.
Definition entry_put (k : bytes) (v : value) (l : entries) : entries := (k, v) :: entry_del k l.

(** An object as a node of a page tree: PageNodeBase::CreatePageNode, page_node_base.cpp:45-62, and PageTreeNode::KidCount and Kids,
    page_tree_node.cpp:26-33.  An element of Kids that is no reference makes the whole array unreadable here. *)
Fixpoint ref_numbers (l : list value) : option (list N) :=
  match l with
  | [] => Some []
  | VRef n 0 :: t => match ref_numbers t with Some r => Some (n :: r) | None => None end
  | _ => None
  end.
Definition parent_entry (l : entries) : option N := match entry_get (str "Parent") l with Some (VRef n _) => Some n | _ => None end.
Definition count_entry (l : entries) : option Z :=
  match entry_get (str "Count") l with Some (VInt (QSigned z)) => Some z | Some (VInt (QUnsigned z)) => Some z | _ => None end.
Definition kids_entry (l : entries) : option (list N) := match entry_get (str "Kids") l with Some (VArr x) => ref_numbers x | _ => None end.
Definition node_of (v : value) : node :=
  match v with
  | VDict l =>
      match entry_get (str "Type") l with
      | Some (VName t) =>
          if bytes_eqb t (str "Page") then Page (parent_entry l)
          else if bytes_eqb t (str "Pages") then Tree (count_entry l) (kids_entry l) (parent_entry l)
          else Bad
      | _ => Bad
      end
  | _ => Bad
  end.
Definition view (f : file_objects) : pheap := fun n => match lookup_id f (n, 0) with Some v => Some (node_of v) | None => None end.

(** The changes the functions of Model/PageTree.v make, carried out on the objects: SetParent (page_node_base.cpp:35-43), the Kids
    array and the value of Count (page_tree.cpp:116-174); entries that did not change are left as they are. *)
Definition opt_eqb {A} (eqb : A -> A -> bool) (a b : option A) : bool :=
  match a, b with Some x, Some y => eqb x y | None, None => true | _, _ => false end.
Fixpoint list_N_eqb (a b : list N) : bool :=
  match a, b with [], [] => true | x :: a', y :: b' => (x =? y) && list_N_eqb a' b' | _, _ => false end.
Definition put_node (v : value) (nd : node) : value :=
  match v, node_of v, nd with
  | VDict l, Page p, Page p' =>
      if opt_eqb N.eqb p p' then v else match p' with Some n => VDict (entry_put (str "Parent") (VRef n 0) l) | None => v end
  | VDict l, Tree c ks _, Tree c' ks' _ =>
      let l1 := if opt_eqb Z.eqb c c' then l else match c' with Some z => entry_put (str "Count") (VInt (QSigned z)) l | None => l end in
      let l2 := if opt_eqb list_N_eqb ks ks' then l1
                else match ks' with Some x => entry_put (str "Kids") (VArr (map (fun n => VRef n 0) x)) l1 | None => l1 end in
      VDict l2
  | _, _, _ => v
  end.
Definition embed (f : file_objects) (h : pheap) : file_objects :=
  map (fun '(n, g, v) => if g =? 0 then match h n with Some nd => (n, g, put_node v nd) | None => (n, g, v) end else (n, g, v)) f.

(** page_object->Remove(Parent) on the page of the source, document.cpp:606-613 *)
Definition unparent (p : N) (f : file_objects) : file_objects :=
  map (fun '(n, g, v) => if (n =? p) && (g =? 0) then (n, g, match v with VDict l => VDict (entry_del (str "Parent") l) | _ => v end) else (n, g, v)) f.

(** The page of a destination (DestinationBase::GetPage, destinations.cpp:180-193) *)
Inductive dest : Type :=
| DRef (n : N)
| DIndex (z : Z).
Definition name_taken (k : bytes) (names : list (bytes * dest)) : bool := existsb (fun e => bytes_eqb (fst e) k) names.

(** Document::IsDestinationReferencingPage, document.cpp:427-472.  For a page number: GetPageRoot (page_node_base.cpp:17-24) of a page
    whose Parent was removed is the page itself, which is then taken for a page tree. *)
Definition references_page (fuel : nat) (src : file_objects) (p : N) (d : dest) : res bool :=
  match d with
  | DRef n => match lookup_id src (n, 0) with Some (VDict _) => Ok (n =? p) | _ => Throw EConversion end
  | DIndex z => do i <- safe_convert uint64_t int64_t z;; do q <- get_page fuel (view src) p (Z.to_N i);; Ok (q =? p)
  end.

(** Document::MergeNameDestinations, document.cpp:474-485, AppendNameDestination, 545-589, and FixDestinationPage, 338-398 *)
Fixpoint merge_names (fuel : nat) (src : file_objects) (p new : N) (snames dnames : list (bytes * dest)) : list (bytes * dest) * res unit :=
  match snames with
  | [] => (dnames, Ok tt)
  | (k, d) :: t =>
      match references_page fuel src p d with
      | Ok true => if name_taken k dnames then (dnames, Throw ENotSupported) else merge_names fuel src p new t (dnames ++ [(k, DRef new)])
      | Ok false => merge_names fuel src p new t dnames
      | Throw e => (dnames, Throw e)
      | Undef => (dnames, Undef)
      | NoFuel => (dnames, NoFuel)
      end
  end.

(** Both documents: the objects of the source, the objects of the destination and the destination's named destinations *)
Record docs := { a_src : file_objects; a_dst : file_objects; a_names : list (bytes * dest) }.

Section Append.
Variable alloc : file_objects -> res ident.   (* File::AllocateNewEntry, file.cpp:931-1002 (C23) *)

(** Document::AppendPage, document.cpp:591-633, of the page object [p] of the source *)
Definition append_page_copy (fuel : nat) (snames : list (bytes * dest)) (p droot : N) (st : docs) : docs * res unit :=
  let src1 := unparent p (a_src st) in
  let st1 := {| a_src := src1; a_dst := a_dst st; a_names := a_names st |} in
  match deep_copy alloc src1 (a_dst st) [HIndirect (p, 0)] with
  | Ok ([new], dst1) =>
      let st2 := {| a_src := src1; a_dst := dst1; a_names := a_names st |} in
      match lookup_id dst1 new with
      | Some v =>
          match node_of v with
          | Page _ =>
              let '(h, r) := append_page fuel (view dst1) droot (fst new) in
              let dst2 := embed dst1 h in
              match r with
              | Ok _ => let '(names, r2) := merge_names fuel src1 p (fst new) snames (a_names st) in ({| a_src := src1; a_dst := dst2; a_names := names |}, r2)
              | _ => ({| a_src := src1; a_dst := dst2; a_names := a_names st |}, r)
              end
          | _ => (st2, Throw EGeneral)
          end
      | None => (st2, Undef)
      end
  | Ok _ => (st1, Undef)
  | Throw e => (st1, Throw e)
  | Undef => (st1, Undef)
  | NoFuel => (st1, NoFuel)
  end.

(** the loop of Document::AppendDocument, document.cpp:419-424; [k] pages are left, the next one is [i] *)
Fixpoint append_from (fuel : nat) (snames : list (bytes * dest)) (sroot droot i : N) (k : nat) (st : docs) : docs * res unit :=
  match k with
  | O => (st, Ok tt)
  | S k' =>
      match get_page fuel (view (a_src st)) sroot i with
      | Ok p =>
          match append_page_copy fuel snames p droot st with
          | (st', Ok _) => append_from fuel snames sroot droot (i + 1) k' st'
          | other => other
          end
      | Throw e => (st, Throw e)
      | Undef => (st, Undef)
      | NoFuel => (st, NoFuel)
      end
  end.

(** Document::AppendDocument, document.cpp:400-425: the number of pages is read once *)
Definition append_document (fuel : nat) (snames : list (bytes * dest)) (sroot droot : N) (st : docs) : docs * res unit :=
  match page_count (view (a_src st)) sroot with
  | Ok n => append_from fuel snames sroot droot 1 (N.to_nat n) st
  | Throw e => (st, Throw e)
  | Undef => (st, Undef)
  | NoFuel => (st, NoFuel)
  end.
End Append.

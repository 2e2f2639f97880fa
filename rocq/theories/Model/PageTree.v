(** The page tree of a document: finding page n, inserting, appending and removing pages.

    Objects of the file are given by their numbers.  Simplifications: only the entries Type, Count, Kids and Parent are kept; the
    elements of Kids are indirect references to dictionaries (or to anything else, [Bad], or to nothing); the page that is inserted
    is an indirect object of the same file.  A missing entry and a dictionary of another type are both reported as [EGeneral]
    (ObjectMissing / SemanticContext exceptions of the library), a wrong type of object as [EConversion]. *)
From Coq Require Import List NArith ZArith Bool.
From Verif.Model Require Import Base Arith Containers.
Import ListNotations.
Local Open Scope N_scope.

Inductive node : Type :=
| Page (parent : option N)                                              (* /Type /Page *)
| Tree (count : option Z) (kids : option (list N)) (parent : option N)  (* /Type /Pages *)
| Bad.                                                                  (* another Type *)

Definition pheap := N -> option node.
Definition put (h : pheap) (n : N) (v : node) : pheap := fun m => if m =? n then Some v else h m.

(** size_t arithmetic *)
Definition wadd (a b : N) : N := (a + b) mod 18446744073709551616.
Definition wsub (a b : N) : N := (a + 18446744073709551616 - b) mod 18446744073709551616.

(** PageNodeBase::CreatePageNode, page_node_base.cpp:45-62, of an element of Kids *)
Definition node_at (h : pheap) (n : N) : res node :=
  match h n with
  | Some Bad => Throw EGeneral
  | Some v => Ok v
  | None => Throw EConversion
  end.
Definition is_tree (v : node) : bool := match v with Tree _ _ _ => true | _ => false end.

(** PageTreeNode::KidCount and SafeConvert<size_type>, page_tree_node.cpp:26-28 *)
Definition size_of_count (c : option Z) : res N :=
  match c with
  | Some z => do v <- safe_convert uint64_t int64_t z;; Ok (Z.to_N v)
  | None => Throw EGeneral
  end.
(** PageTreeNode::Kids, page_tree_node.cpp:30-33 *)
Definition kids_of (ks : option (list N)) : res (list N) := match ks with Some l => Ok l | None => Throw EGeneral end.

(** make_deferred<PageTreeNode>(_obj), page_tree_node.cpp:20-24 *)
Definition tree_at (h : pheap) (n : N) : res (option Z * option (list N)) :=
  match h n with
  | Some (Tree c ks _) => Ok (c, ks)
  | _ => Throw EGeneral
  end.

(** PageTree::PageCount, page_tree.cpp:18-21 *)
Definition page_count (h : pheap) (root : N) : res N := do t <- tree_at h root;; size_of_count (fst t).

(** PageTree::HasTreeChilds, page_tree.cpp:103-114 *)
Fixpoint has_tree_childs (h : pheap) (ks : list N) : res bool :=
  match ks with
  | [] => Ok false
  | k :: rest => do v <- node_at h k;; if is_tree v then Ok true else has_tree_childs h rest
  end.

(** the loop of PageTree::PageInternal, page_tree.cpp:67-100; [rec] is the recursive call.  The answer is the object number of the page *)
Fixpoint page_loop (rec : N -> N -> N -> res N) (h : pheap) (page processed : N) (ks : list N) : res N :=
  match ks with
  | [] => Throw EGeneral
  | k :: rest =>
      do v <- node_at h k;;
      match v with
      | Tree c kks _ =>
          do kid_count <- size_of_count c;;
          if wadd processed kid_count <=? page then page_loop rec h page (wadd processed kid_count) rest
          else
            do l <- kids_of kks;;
            do deep <- has_tree_childs h l;;
            if deep then rec k page processed
            else
              do r <- arr_get l (wsub page processed);;
              do w <- node_at h r;;
              if is_tree w then Throw EConversion else Ok r
      | _ => if negb (processed =? page) then page_loop rec h page (wadd processed 1) rest else Ok k
      end
  end.

(** PageTree::PageInternal, page_tree.cpp:64-101 *)
Fixpoint page_internal (fuel : nat) (h : pheap) (n page processed : N) {struct fuel} : res N :=
  match fuel with
  | O => NoFuel
  | S f =>
      do t <- tree_at h n;;
      do ks <- kids_of (snd t);;
      page_loop (page_internal f h) h page processed ks
  end.

(** PageTree::GetCachedPage, page_tree.cpp:47-62 *)
Definition get_page (fuel : nat) (h : pheap) (root page : N) : res N :=
  if page <? 1 then Throw EGeneral else page_internal fuel h root page 1.

(** PageTree::UpdateKidsCount, page_tree.cpp:150-174; the new heap is kept when an exception is thrown.  The number written is taken
    as it is (SetValue of an unsigned number). *)
Definition set_count (h : pheap) (n c : N) : pheap :=
  match h n with
  | Some (Tree _ ks p) => put h n (Tree (Some (Z.of_N c)) ks p)
  | _ => h
  end.
Fixpoint count_loop (rec : pheap -> N -> pheap * res N) (h : pheap) (ks : list N) (total : N) : pheap * res N :=
  match ks with
  | [] => (h, Ok total)
  | k :: rest =>
      match rec h k with
      | (h', Ok c) => count_loop rec h' rest (wadd total c)
      | (h', Throw e) => (h', Throw e)
      | (h', Undef) => (h', Undef)
      | (h', NoFuel) => (h', NoFuel)
      end
  end.
Fixpoint update_counts (fuel : nat) (h : pheap) (n : N) {struct fuel} : pheap * res N :=
  match fuel with
  | O => (h, NoFuel)
  | S f =>
      match h n with
      | Some (Page _) => (h, Ok 1)
      | Some (Tree (Some _) (Some ks) _) =>
          match count_loop (update_counts f) h ks 0 with
          | (h', Ok c) => (set_count h' n c, Ok c)
          | other => other
          end
      | Some _ => (h, Throw EGeneral)
      | None => (h, Throw EConversion)
      end
  end.

(** PageTree::GetKidsInternal, page_tree.cpp:176-184: an empty array is inserted when there is none *)
Definition kids_internal (h : pheap) (root : N) : res (pheap * list N) :=
  match h root with
  | Some (Tree c (Some ks) p) => Ok (h, ks)
  | Some (Tree c None p) => Ok (put h root (Tree c (Some []) p), [])
  | _ => Throw EGeneral
  end.
Definition set_kids (h : pheap) (root : N) (ks : list N) : pheap :=
  match h root with
  | Some (Tree c _ p) => put h root (Tree c (Some ks) p)
  | _ => h
  end.

(** PageNodeBase::SetParent, page_node_base.cpp:35-43, of a page *)
Definition set_parent (h : pheap) (page root : N) : pheap :=
  match h page with
  | Some (Page _) => put h page (Page (Some root))
  | _ => h
  end.

(** PageTree::UpdateKidsCount(), page_tree.cpp:145-148 *)
Definition finish_update (r : pheap * res N) : pheap * res unit :=
  match r with
  | (h, Ok _) => (h, Ok tt)
  | (h, Throw e) => (h, Throw e)
  | (h, Undef) => (h, Undef)
  | (h, NoFuel) => (h, NoFuel)
  end.

(** PageTree::Insert, page_tree.cpp:116-125 *)
Definition insert_page (fuel : nat) (h : pheap) (root page index : N) : pheap * res unit :=
  match kids_internal h root with
  | Ok (h1, ks) =>
      match arr_insert ks (wsub index 1) page with
      | Ok ks' => finish_update (update_counts fuel (set_parent (set_kids h1 root ks') page root) root)
      | Throw e => (h1, Throw e)
      | Undef => (h1, Undef)
      | NoFuel => (h1, NoFuel)
      end
  | Throw e => (h, Throw e)
  | Undef => (h, Undef)
  | NoFuel => (h, NoFuel)
  end.

(** PageTree::Append, page_tree.cpp:127-133 *)
Definition append_page (fuel : nat) (h : pheap) (root page : N) : pheap * res unit :=
  match kids_internal h root with
  | Ok (h1, ks) => insert_page fuel h1 root page (wadd (arr_size ks) 1)
  | Throw e => (h, Throw e)
  | Undef => (h, Undef)
  | NoFuel => (h, NoFuel)
  end.

(** PageTree::Remove, page_tree.cpp:135-143; the assertion is compiled out *)
Definition remove_page (fuel : nat) (h : pheap) (root index : N) : pheap * res unit :=
  match kids_internal h root with
  | Ok (h1, ks) => finish_update (update_counts fuel (set_kids h1 root (fst (arr_remove ks (wsub index 1)))) root)
  | Throw e => (h, Throw e)
  | Undef => (h, Undef)
  | NoFuel => (h, NoFuel)
  end.

(** A call on the page tree. *)
Inductive page_op : Type :=
| PInsert (page index : N)
| PAppend (page : N)
| PRemove (index : N).
Definition page_step (fuel : nat) (root : N) (h : pheap) (o : page_op) : pheap * res unit :=
  match o with
  | PInsert p i => insert_page fuel h root p i
  | PAppend p => append_page fuel h root p
  | PRemove i => remove_page fuel h root i
  end.
Fixpoint page_run (fuel : nat) (root : N) (h : pheap) (os : list page_op) : pheap * list (res unit) :=
  match os with
  | [] => (h, [])
  | o :: rest =>
      let '(h1, a) := page_step fuel root h o in
      let '(h2, l) := page_run fuel root h1 rest in (h2, a :: l)
  end.

(** What a page tree means: the pages below a node in document order, and right counts.  Independent of the model's functions. *)
From Coq Require Import List NArith ZArith.
From Verif.Model Require Import PageTree.
Import ListNotations.

(** the leaves below node [n], from left to right.  Only finite trees have such a list. *)
Inductive pages_of (h : pheap) : N -> list N -> Prop :=
| po_page : forall n par, h n = Some (Page par) -> pages_of h n [n]
| po_tree : forall n c ks par l, h n = Some (Tree c (Some ks) par) -> pages_of_all h ks l -> pages_of h n l
with pages_of_all (h : pheap) : list N -> list N -> Prop :=
| pa_nil : pages_of_all h [] []
| pa_cons : forall k ks l l', pages_of h k l -> pages_of_all h ks l' -> pages_of_all h (k :: ks) (l ++ l').

(** [m] is [n] or lies below it *)
Inductive below (h : pheap) : N -> N -> Prop :=
| be_refl : forall n, below h n n
| be_kid : forall n c ks par k m, h n = Some (Tree c (Some ks) par) -> In k ks -> below h k m -> below h n m.

(** every inner node at or below [root] has a Count, and it is the number of its pages *)
Definition counts_right (h : pheap) (root : N) : Prop :=
  forall n c ks par l, below h root n -> h n = Some (Tree c ks par) -> pages_of h n l -> c = Some (Z.of_nat (length l)).
Definition counts_there (h : pheap) (root : N) : Prop :=
  forall n c ks par, below h root n -> h n = Some (Tree c ks par) -> c <> None.

Definition is_page (h : pheap) (n : N) : Prop := exists par, h n = Some (Page par).
Definition is_pages (h : pheap) (n : N) : Prop := exists c ks par, h n = Some (Tree c (Some ks) par).

(** the root has only pages as kids *)
Definition flat (h : pheap) (root : N) (l : list N) : Prop :=
  exists c par, h root = Some (Tree (Some c) (Some l) par) /\ Forall (is_page h) l.

(** the edits of a sequence of pages; page numbers start at 1 *)
Definition insert_at (l : list N) (i : nat) (p : N) : list N := firstn (i - 1) l ++ p :: skipn (i - 1) l.
Definition remove_at (l : list N) (i : nat) : list N := firstn (i - 1) l ++ skipn i l.

(** what a call is meant to do with the sequence of pages, and whether it reports success *)
Definition edit (l : list N) (o : page_op) : list N * bool :=
  match o with
  | PInsert p i => if ((1 <=? i) && (i <=? N.of_nat (length l) + 1))%N%bool then (insert_at l (N.to_nat i) p, true) else (l, false)
  | PAppend p => (l ++ [p], true)
  | PRemove i => if ((1 <=? i) && (i <=? N.of_nat (length l)))%N%bool then (remove_at l (N.to_nat i), true) else (l, false)
  end.
Definition edits (l : list N) (os : list page_op) : list N := fold_left (fun l o => fst (edit l o)) os l.

(** calls with page numbers that fit into size_t, inserting pages of this file *)
Definition good_call (h : pheap) (o : page_op) : Prop :=
  match o with
  | PInsert p i => is_page h p /\ (i < 18446744073709551616)%N
  | PAppend p => is_page h p
  | PRemove i => (i < 18446744073709551616)%N
  end.

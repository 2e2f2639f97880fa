(** Sequences and their indexes. *)
From Coq Require Import List NArith ZArith.
From Verif.Model Require Import Base Indexes.
Import ListNotations.

(** what a call does to a sequence, and what the program is told; a call with an index that the sequence does not have fails and changes
    nothing *)
Inductive does {V : Type} : list V -> call V -> list V -> res (told V) -> Prop :=
| d_size : forall l, does l Size l (Ok (Count (N.of_nat (length l))))
| d_at : forall a v b, does (a ++ v :: b) (At (N.of_nat (length a))) (a ++ v :: b) (Ok (Value v))
| d_append : forall l v, does l (Append v) (l ++ [v]) (Ok Done)
| d_insert : forall a v b, does (a ++ b) (Insert (N.of_nat (length a)) v) (a ++ v :: b) (Ok Done)
| d_remove : forall a v b, does (a ++ v :: b) (Remove (N.of_nat (length a))) (a ++ b) (Ok Done)
| d_clear : forall l, does l Clear [] (Ok Done)
| d_at_beyond : forall l i e, (N.of_nat (length l) <= i)%N -> does l (At i) l (Throw e)
| d_insert_beyond : forall l i v e, (N.of_nat (length l) < i)%N -> does l (Insert i v) l (Throw e)
| d_remove_beyond : forall l i e, (N.of_nat (length l) <= i)%N -> does l (Remove i) l (Throw e).
Inductive all_do {V : Type} : list V -> list (call V) -> list V -> list (res (told V)) -> Prop :=
| a_nil : forall l, all_do l [] l []
| a_cons : forall l c l1 r t l2 rs, does l c l1 r -> all_do l1 t l2 rs -> all_do l (c :: t) l2 (r :: rs).

(** the sequences of calls that stay within the collection when it has [n] elements to begin with.  [beyond] is how far beyond the last
    element a removal may reach. *)
Fixpoint within {V : Type} (beyond n : N) (cs : list (call V)) : Prop :=
  match cs with
  | [] => True
  | Size :: t | At _ :: t => within beyond n t
  | Append _ :: t => within beyond (n + 1) t
  | Insert i _ :: t => (i <= n)%N /\ within beyond (n + 1) t
  | Remove i :: t => (i < n + beyond)%N /\ within beyond (if (i <? n)%N then n - 1 else n) t
  | Clear :: t => within beyond 0 t
  end.
Definition no_clear {V : Type} (c : call V) : Prop := c <> Clear.

(** the pairs that an array of numbers lists *)
Fixpoint flat (ps : list (Z * Z)) : list Z :=
  match ps with
  | [] => []
  | (a, b) :: t => a :: b :: flat t
  end.

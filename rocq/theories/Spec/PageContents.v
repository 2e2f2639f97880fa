(** The contents of a page (ISO 32000-1, 7.7.3.3 and 7.8.2). *)
From Coq Require Import List NArith ZArith Bool.
From Verif.Model Require Import Base Object Content PageContents.
From Verif.Spec Require Import Strings Grammar Content.
Import ListNotations.
Local Open Scope N_scope.

(** Two streams meet at a token boundary: white space at the end of the first, or white space or a delimiter at the start of what
    follows (or nothing follows). *)
Definition boundary (a b : list N) : Prop := (exists p c, a = p ++ [c] /\ In c pdf_white) \/ token_ends b.
Fixpoint boundaries (l : list (list N)) : Prop :=
  match l with
  | [] => True
  | a :: t => boundary a (concat t) /\ boundaries t
  end.

(** the effect of an edit on a sequence *)
Inductive edited : change -> list instr -> list instr -> Prop :=
| ed_append : forall i l, edited (ChAppend i) l (l ++ [i])
| ed_insert : forall n i a b, N.of_nat (List.length a) = n -> edited (ChInsert n i) (a ++ b) (a ++ i :: b)
| ed_remove : forall n i a b, N.of_nat (List.length a) = n -> edited (ChRemove n) (a ++ i :: b) (a ++ b)
| ed_clear : forall l, edited ChClear l [].
Inductive edited_all : list change -> list instr -> list instr -> Prop :=
| ea_nil : forall l, edited_all [] l l
| ea_cons : forall ch t l l1 l2, edited ch l l1 -> edited_all t l1 l2 -> edited_all (ch :: t) l l2.

(** what a user sees of a page opened anew *)
Definition page_shows (c : contents) (l : list instruction) : Prop :=
  exists is c2, instructions (reopened c) = Ok (is, c2) /\ map seen is = l.

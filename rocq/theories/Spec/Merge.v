(** What merging update sections and renumbering objects must keep. *)
From Coq Require Import List NArith ZArith Bool.
From Verif.Model Require Import Base Xref Chain.
From Verif.Spec Require Import Chain.
Import ListNotations.
Local Open Scope N_scope.

(** an entry describes an object: not a free and not a released one *)
Definition describes_object (e : xentry) : Prop :=
  match xdata e with KFree _ => False | KUsed _ u => u = true | KComp _ _ => True end.

(** no section lists the same number twice, counting its hybrid stream *)
Definition numbers_once (s : section) : Prop := forall x y, lists s x -> lists s y -> xnum x = xnum y -> x = y.

(** tables hold no entries of object streams (the API refuses to add them) *)
Definition tables_plain (c : chain) : Prop :=
  forall s e, In s c -> s_kind s <> SStream -> In e (s_entries s) -> match xdata e with KComp _ _ => False | _ => True end.

(** how many entries of the table have a smaller number: the new number of an object when the gaps are closed *)
Definition rank {A : Type} (l : list (xentry * A)) (n : N) : N :=
  N.of_nat (length (filter (fun p => xnum (fst p) <? n) l)).
Definition has_number {A : Type} (l : list (xentry * A)) (n : N) : bool := existsb (fun p => xnum (fst p) =? n) l.

(** an entry after closing the gaps: its number becomes its rank, its object stream is named by the rank of that stream, and the object
    it holds, the generation, the offset and the index are unchanged *)
Definition closed_up {A : Type} (l : list (xentry * A)) (p : xentry * A) : xentry * A :=
  ({| xnum := rank l (xnum (fst p)); xgen := xgen (fst p);
      xdata := match xdata (fst p) with
               | KComp s i => KComp (if has_number l s then rank l s else s) i
               | d => d
               end |}, snd p).

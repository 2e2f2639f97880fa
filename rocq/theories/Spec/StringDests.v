(** What string destinations are, without the program's helpers. *)
From Coq Require Import List NArith ZArith Bool String Sorted.
From Coq Require Import List.
From Verif.Model Require Import Base SMap Object Containers Tree StringDests.
From Verif.Spec Require Import Tree.
Import ListNotations.
Local Open Scope N_scope.

(** An explicit destination: a page, how it is shown, and more *)
Definition shows : list bytes := [str "XYZ"; str "Fit"; str "FitH"; str "FitV"; str "FitR"; str "FitB"; str "FitBH"; str "FitBV"].
Definition leads_to (p : N) (kind : bytes) (more : list obj) (x : obj) : Prop := In kind shows /\ x = OArr (ORef p 0 :: OName kind :: more).
(** a dictionary as the library keeps it: in the order of the keys *)
Definition sorted_keys (d : list (bytes * obj)) : Prop := StronglySorted (fun a b => buffer_ltb (fst a) (fst b) = true) d.
(** the same, or a dictionary with it under the key D *)
Inductive destination (p : N) : obj -> Prop :=
| ds_array : forall kind more x, leads_to p kind more x -> destination p x
| ds_dictionary : forall kind more x before after, leads_to p kind more x -> sorted_keys (before ++ (str "D", x) :: after) ->
    destination p (ODict (before ++ (str "D", x) :: after)).
(** the same destination on another page *)
Inductive moved (new : N) : obj -> obj -> Prop :=
| mv_array : forall p kind more, moved new (OArr (ORef p 0 :: OName kind :: more)) (OArr (ORef new 0 :: OName kind :: more))
| mv_dictionary : forall x x' before after, moved new x x' ->
    moved new (ODict (before ++ (str "D", x) :: after)) (ODict (before ++ (str "D", x') :: after)).

(** The string destinations of a target. *)
Definition string_destinations (tg : target) (es : list (bytes * obj)) : Prop :=
  match d_tree tg with
  | Some root => name_entries (d_nodes tg) root es
  | None => es = []
  end.
Definition has_kids (tg : target) : Prop := exists root k ks, d_tree tg = Some root /\ t_kids root = Some (k :: ks).
(** A name tree that is one array, without the Limits that do not belong into a root. *)
Definition flat (tg : target) : Prop := forall root, d_tree tg = Some root -> t_kids root = None /\ t_limits root = false.

Section Source.
Variable objects : N -> option obj.   (* of the source *)
(** A destination on the page [p], as an object of its own or as a value in the name tree itself. *)
Definition indirect_destination (o : obj) (p : N) : Prop :=
  exists n x d, o = ORef n 0 /\ objects n = Some x /\ destination p x /\ objects p = Some (ODict d).
Definition direct_destination (o : obj) (p : N) : Prop := exists d, destination p o /\ objects p = Some (ODict d).
End Source.

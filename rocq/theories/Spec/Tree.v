(** What is stored in a name or number tree. *)
From Coq Require Import List NArith ZArith.
From Verif.Model Require Import Base Object Tree.
Import ListNotations.

Section Stored.
Context {V : Type}.
Variable key : Type.
Variable is_key : V -> key -> Prop.

(** an array of keys and values in turn *)
Inductive paired : list V -> list (key * V) -> Prop :=
| pr_nil : paired [] []
| pr_cons : forall o k v l es, is_key o k -> paired l es -> paired (o :: v :: l) ((k, v) :: es).

(** the entries below a node other than the root: a leaf has Limits and values, an inner node Limits and Kids *)
Inductive entries (vals : tnode V -> option (list V)) (h : theap V) : N -> list (key * V) -> Prop :=
| en_leaf : forall k n l es, h k = Some n -> t_kids n = None -> t_limits n = true -> vals n = Some l -> paired l es -> entries vals h k es
| en_inner : forall k n ks es, h k = Some n -> t_kids n = Some ks -> t_limits n = true -> t_names n = None -> t_nums n = None ->
    entries_all vals h ks es -> entries vals h k es
with entries_all (vals : tnode V -> option (list V)) (h : theap V) : list N -> list (key * V) -> Prop :=
| ea_nil : entries_all vals h [] []
| ea_cons : forall k ks es es', entries vals h k es -> entries_all vals h ks es' -> entries_all vals h (k :: ks) (es ++ es').

(** the entries of a tree, given by its root: values of the root itself or of its kids *)
Inductive tree_entries (vals : tnode V -> option (list V)) (h : theap V) (root : tnode V) : list (key * V) -> Prop :=
| te_values : forall l es, t_kids root = None -> vals root = Some l -> paired l es -> tree_entries vals h root es
| te_kids : forall ks es, t_kids root = Some ks -> vals root = None -> entries_all vals h ks es -> tree_entries vals h root es
| te_empty : t_kids root = None -> vals root = None -> tree_entries vals h root [].
End Stored.

(** name trees: keys are strings *)
Definition string_key (o : obj) (k : bytes) : Prop := (o = OLit k \/ o = OHex k) /\ all_bytes k.
Definition name_entries := tree_entries bytes string_key t_names.

(** number trees: keys are integers, whatever their addresses *)
Definition integer_key (o : addressed) (z : Z) : Prop := snd o = OInt z.
Definition number_entries := tree_entries Z integer_key t_nums.

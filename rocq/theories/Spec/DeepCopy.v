(** What a copy of an object graph is. *)
From Coq Require Import List NArith Bool.
From Verif.Model Require Import Base Equality Duplicates DeepCopy.
Import ListNotations.

(** The object with this number: [holds f i v] *)
Definition holds (f : file_objects) (i : ident) (v : value) : Prop := In (i, v) f.
Definition numbers_unique (f : file_objects) : Prop := NoDup (map fst f).
(** [v] contains a reference to [i] *)
Inductive contains_ref (i : ident) : value -> Prop :=
| cr_ref : contains_ref i (VRef (fst i) (snd i))
| cr_arr : forall l x, In x l -> contains_ref i x -> contains_ref i (VArr l)
| cr_dict : forall l k x, In (k, x) l -> contains_ref i x -> contains_ref i (VDict l)
| cr_stream : forall l b k x, In (k, x) l -> contains_ref i x -> contains_ref i (VStream l b).
(** Objects of [f] that are found by following references from the roots *)
Inductive found_from (f : file_objects) (roots : list ident) : ident -> Prop :=
| ff_root : forall i v, In i roots -> holds f i v -> found_from f roots i
| ff_step : forall i j v w, found_from f roots i -> holds f i v -> contains_ref j v -> holds f j w -> found_from f roots j.

(** The same value with every reference [i] replaced by [m i] *)
Inductive renamed (m : ident -> ident) : value -> value -> Prop :=
| rn_null : renamed m VNull VNull
| rn_bool : forall b, renamed m (VBool b) (VBool b)
| rn_int : forall q, renamed m (VInt q) (VInt q)
| rn_real : forall q, renamed m (VReal q) (VReal q)
| rn_name : forall n, renamed m (VName n) (VName n)
| rn_str : forall h s, renamed m (VStr h s) (VStr h s)
| rn_ref : forall n g, renamed m (VRef n g) (VRef (fst (m (n, g))) (snd (m (n, g))))
| rn_arr : forall l l', Forall2 (renamed m) l l' -> renamed m (VArr l) (VArr l')
| rn_dict : forall l l', Forall2 (fun x y => fst x = fst y /\ renamed m (snd x) (snd y)) l l' -> renamed m (VDict l) (VDict l')
| rn_stream : forall l l' b, Forall2 (fun x y => fst x = fst y /\ renamed m (snd x) (snd y)) l l' -> renamed m (VStream l b) (VStream l' b).

(** [dst'] is [dst] with an isomorphic copy of what the roots lead to; [r] are the copies of the roots *)
Definition copied (src dst : file_objects) (roots : list ident) (r : list ident) (dst' : file_objects) : Prop :=
  exists m : ident -> ident,
    (forall i j, found_from src roots i -> found_from src roots j -> m i = m j -> i = j) /\
    (forall i, found_from src roots i -> ~ In (m i) (map fst dst)) /\
    (forall i v, found_from src roots i -> holds src i v -> exists v', holds dst' (m i) v' /\ renamed m v v') /\
    (forall i v j, found_from src roots i -> holds src i v -> contains_ref j v ->
       ((exists w, holds src j w) <-> (exists w, holds dst' (m j) w))) /\
    (forall i v, holds dst i v -> holds dst' i v) /\
    (forall i v, holds dst' i v -> holds dst i v \/ exists j, found_from src roots j /\ i = m j) /\
    r = map m roots.
(** Every reference in what is copied leads to an object *)
Definition references_resolve (src : file_objects) (roots : list ident) : Prop :=
  (forall i, In i roots -> exists v, holds src i v) /\
  (forall i v j, found_from src roots i -> holds src i v -> contains_ref j v -> exists w, holds src j w).

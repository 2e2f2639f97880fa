(** What appending a document means: every page of the source gets a copy at the end of the destination. *)
From Coq Require Import List NArith Bool String.
From Verif.Model Require Import Base Token Buffer Equality Duplicates PageTree Append.
From Verif.Spec Require Import PageTree DeepCopy.
Import ListNotations.

(** [f] with the Parent entry of the pages [ps] removed; nothing else is different *)
Definition drop_parents (ps : list N) (f : file_objects) : file_objects :=
  map (fun '(n, g, v) =>
         if (g =? 0)%N && existsb (N.eqb n) ps
         then (n, g, match v with VDict l => VDict (filter (fun e => negb (bytes_eqb (fst e) (str "Parent"))) l) | _ => v end)
         else (n, g, v)) f.

(** Object [n] of [dst] is a copy of page [p] of [src]: some renaming [m] takes [p] to [n], all objects that [p] leads to have distinct
    copies, under numbers that [old] did not use, with the same contents and renamed references, and the dictionary [n] has the
    renamed entries of [p], with the page tree [root] as Parent. *)
Definition page_copy (src : file_objects) (p : N) (old dst : file_objects) (n root : N) : Prop :=
  exists m : ident -> ident,
    m (p, 0%N) = (n, 0%N) /\
    (forall i, found_from src [(p, 0%N)] i -> ~ In (m i) (map fst old)) /\
    (forall i j, found_from src [(p, 0%N)] i -> found_from src [(p, 0%N)] j -> m i = m j -> i = j) /\
    (forall i v, found_from src [(p, 0%N)] i -> holds src i v -> i <> (p, 0%N) -> exists v', holds dst (m i) v' /\ renamed m v v') /\
    (forall l, holds src (p, 0%N) (VDict l) ->
       exists l', holds dst (n, 0%N) (VDict l') /\ entry_get (str "Parent") l' = Some (VRef root 0) /\
         forall k, k <> str "Parent" ->
           match entry_get k l, entry_get k l' with Some v, Some v' => renamed m v v' | None, None => True | _, _ => False end).

(** An object of the destination afterwards: the same, or a dictionary that differs in Count and, for the root of the page tree, in Kids *)
Definition kept (root : N) (i : ident) (v v' : value) : Prop :=
  v' = v \/
  exists l l', v = VDict l /\ v' = VDict l' /\ forall k, k <> str "Count" -> (k = str "Kids" -> i <> (root, 0%N)) -> entry_get k l' = entry_get k l.

(** No reference of the file dangles *)
Definition no_dangling (f : file_objects) : Prop := forall i v j, holds f i v -> contains_ref j v -> exists w, holds f j w.
(** Numbers for new objects are unused *)
Definition allocates (alloc : file_objects -> res ident) : Prop := forall f, exists n, alloc f = Ok (n, 0%N) /\ ~ In (n, 0%N) (map fst f).
(** Named destinations lead to dictionaries of the file *)
Definition names_resolve (f : file_objects) (names : list (bytes * dest)) : Prop :=
  forall k d, In (k, d) names -> exists p l, d = DRef p /\ holds f (p, 0%N) (VDict l).

(** Optimising the chain of sections before a full save: FileWriter::MergeXrefs, RemoveFreedObjects, SquashTableSpace
    (syntax/files/file_writer.cpp).  The chain these functions get was built by CloneXrefChain (785-815), which ends with Reverse():
    the oldest section comes first. *)
From Coq Require Import List NArith ZArith Bool String.
From Verif.Model Require Import Base SMap Object Containers Xref Chain.
Import ListNotations.
Local Open Scope N_scope.

(** XrefEntryBase::InUse, xref_entry.h: a free entry never, the others until their reference is released *)
Definition entry_in_use (e : xentry) : bool :=
  match xdata e with
  | KFree _ => false
  | KUsed _ u => u
  | KComp _ _ => true
  end.

(** Add of the merged section: a table refuses compressed entries (xref.cpp:231-243) *)
Definition add_to (k : skind) (e : xentry) (t : list xentry) : res (list xentry) :=
  match k with
  | STable => table_add e t
  | _ => Ok (xadd e t)
  end.
(** the loops at file_writer.cpp:1917-1925 and 1933-1941 *)
Fixpoint add_used (k : skind) (l t : list xentry) : res (list xentry) :=
  match l with
  | [] => Ok t
  | e :: r =>
      if entry_in_use e then do t' <- add_to k e t;; add_used k r t'
      else add_used k r t
  end.
(** entries in the order in which they are added: those of the section, then those of its hybrid stream *)
Definition section_items (s : section) : list xentry :=
  s_entries s ++ match s_kind s, s_hybrid s with STable, Some h => h | _, _ => [] end.
(** file_writer.cpp:1913-1943 *)
Fixpoint merge_sections (k : skind) (c : chain) (t : list xentry) : res (list xentry) :=
  match c with
  | [] => Ok t
  | s :: r => do t' <- add_used k (section_items s) t;; merge_sections k r t'
  end.

(** kind of the merged section and the dictionary it starts from, file_writer.cpp:1855-1890: the first stream, or hybrid stream, of
    the chain lends its stream object.  [hybrid_dict] gives the dictionary of a table's hybrid stream. *)
Fixpoint merged_kind (hybrid_dict : section -> list (bytes * obj)) (c : chain) : skind * list (bytes * obj) :=
  match c with
  | [] => (STable, [])
  | s :: r =>
      match s_kind s, s_hybrid s with
      | SStream, _ => (SStream, s_trailer s)
      | STable, Some _ => (SStream, hybrid_dict s)
      | _, _ => merged_kind hybrid_dict r
      end
  end.

(** FileWriter::CloneTrailerDictionary, file_writer.cpp:990-1098: /Size is the number of entries, the other keys are copied when
    present; cloning an object gives an equal object *)
Definition trailer_keys : list bytes :=
  [str "ID"; str "Info"; str "Root"; str "XRefStm"; str "Prev"; str "Type"; str "Index"; str "W"; str "Length"; str "Filter";
   str "DecodeParms"; str "Encrypt"].
Definition copy_key (from : list (bytes * obj)) (m : list (bytes * obj)) (k : bytes) : list (bytes * obj) :=
  match sm_find k from with Some v => sm_insert k v m | None => m end.
Definition clone_trailer (s : section) : list (bytes * obj) :=
  fold_left (copy_key (s_trailer s)) trailer_keys [(str "Size", OInt (Z.of_nat (List.length (s_entries s))))].

(** FileWriter::MergeXrefs, file_writer.cpp:1840-1972, with the feature on *)
Definition merge_chain (hybrid_dict : section -> list (bytes * obj)) (c : chain) : res chain :=
  match c with
  | [] => Ok []
  | s0 :: _ =>
      let '(k, base) := merged_kind hybrid_dict c in
      do t0 <- add_to k {| xnum := 0; xgen := 65535; xdata := KFree 0 |} [];;
      do t <- merge_sections k c t0;;
      let trailer := sm_remove (str "Prev") (dict_merge base (clone_trailer (last c s0))) in
      Ok [{| s_kind := k; s_entries := t; s_hybrid := None; s_trailer := trailer |}]
  end.

(** FileWriter::RemoveFreedObjects, file_writer.cpp:1807-1838, for the entries of one section: the first one stays *)
Definition remove_freed (l : list xentry) : list xentry :=
  match l with
  | [] => []
  | e :: t => e :: filter entry_in_use t
  end.

(** ** SquashTableSpace, file_writer.cpp:2321-2488.  An entry comes with the object it holds (of any type: the object itself moves to the
    new entry, and references to it follow, because a reference is written with the number of the entry its object belongs to). *)
Section Squash.
Context {A : Type}.

(** XrefBase::Add and Remove for entries with their objects *)
Fixpoint padd (p : xentry * A) (t : list (xentry * A)) : list (xentry * A) :=
  match t with
  | [] => [p]
  | x :: r =>
      if xnum (fst p) <? xnum (fst x) then p :: t
      else if xnum (fst p) =? xnum (fst x) then p :: r
      else x :: padd p r
  end.
Definition premove (n : N) (t : list (xentry * A)) : list (xentry * A) := filter (fun p => negb (xnum (fst p) =? n)) t.

(** the entry with its new number, file_writer.cpp:2371-2446: generation, offset, stream number, index and next free number stay *)
Definition renumber (n : N) (p : xentry * A) : xentry * A :=
  ({| xnum := n; xgen := xgen (fst p); xdata := xdata (fst p) |}, snd p).

(** the entries of one section, file_writer.cpp:2358-2448: [l] is the sorted copy the loop runs over, [t] the section, [m] the map
    from old to new numbers (latest assignment first), [i] the running number *)
Fixpoint squash_entries (i : N) (l t : list (xentry * A)) (m : list (N * N)) : N * list (xentry * A) * list (N * N) :=
  match l with
  | [] => (i, t, m)
  | p :: r =>
      if xnum (fst p) =? i then squash_entries (i + 1) r t m
      else squash_entries (i + 1) r (padd (renumber i p) (premove (xnum (fst p)) t)) ((xnum (fst p), i) :: m)
  end.
Fixpoint squash_sections (i : N) (c : list (list (xentry * A))) (m : list (N * N)) : list (list (xentry * A)) * list (N * N) :=
  match c with
  | [] => ([], m)
  | s :: r =>
      let '(i', t, m') := squash_entries i s s m in
      let '(r', m'') := squash_sections i' r m' in
      (t :: r', m'')
  end.

(** the numbers of object streams, file_writer.cpp:2457-2487 *)
Fixpoint mapped (m : list (N * N)) (n : N) : N :=
  match m with
  | [] => n
  | (a, b) :: r => if a =? n then b else mapped r n
  end.
Definition fix_stream (m : list (N * N)) (p : xentry * A) : xentry * A :=
  match xdata (fst p) with
  | KComp s i => ({| xnum := xnum (fst p); xgen := xgen (fst p); xdata := KComp (mapped m s) i |}, snd p)
  | _ => p
  end.
Definition squash (c : list (list (xentry * A))) : list (list (xentry * A)) :=
  let '(c', m) := squash_sections 0 c [] in map (map (fix_stream m)) c'.
End Squash.

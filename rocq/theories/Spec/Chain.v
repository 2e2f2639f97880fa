(** What users rely on when object numbers are allocated and objects are looked up in a file with several update sections. *)
From Coq Require Import List NArith ZArith Bool Relations String.
From Verif.Model Require Import Base SMap Object Token Xref Chain.
Import ListNotations.
Local Open Scope N_scope.

(** the entries a section lists: its own, and for a table those of its hybrid stream *)
Definition lists (s : section) (e : xentry) : Prop :=
  In e (s_entries s) \/ (s_kind s = STable /\ exists h, s_hybrid s = Some h /\ In e h).

(** object number [n] is present in some section of the chain, in whatever state *)
Definition present (n : N) (c : chain) : Prop := exists s e, In s c /\ lists s e /\ xnum e = n.
Definition present_in (n : N) (st : alloc_state) : Prop := exists c, a_chain st = Some c /\ present n c.

(** the entry of a section for a number: the first listed one, and hybrid entries count only for numbers the table does not have *)
Definition entry_of (s : section) (n : N) (e : xentry) : Prop :=
  (exists before after, s_entries s = before ++ e :: after /\ xnum e = n /\ forall x, In x before -> xnum x <> n) \/
  ((forall x, In x (s_entries s) -> xnum x <> n) /\ s_kind s = STable /\
   exists h before after, s_hybrid s = Some h /\ h = before ++ e :: after /\ xnum e = n /\ forall x, In x before -> xnum x <> n).

(** A history of allocations, releases of entries and arbitrary other changes of the sections (objects added, sections replaced): the
    numbers that were handed out, in this order.  Failed allocations hand out nothing. *)
Inductive history : alloc_state -> list N -> alloc_state -> Prop :=
| h_done : forall st, history st [] st
| h_allocate : forall st n st1 ns st2, allocate st = Ok (n, st1) -> history st1 ns st2 -> history st (n :: ns) st2
| h_release : forall st c num gen ns st2, a_chain st = Some c ->
    history {| a_next := a_next st; a_chain := Some (fst (release_entry num gen c)) |} ns st2 -> history st ns st2
| h_change : forall st c ns st2, history {| a_next := a_next st; a_chain := c |} ns st2 -> history st ns st2.

(** the same without other changes *)
Inductive quiet_history : alloc_state -> list N -> alloc_state -> Prop :=
| q_done : forall st, quiet_history st [] st
| q_allocate : forall st n st1 ns st2, allocate st = Ok (n, st1) -> quiet_history st1 ns st2 -> quiet_history st (n :: ns) st2
| q_release : forall st c num gen ns st2, a_chain st = Some c ->
    quiet_history {| a_next := a_next st; a_chain := Some (fst (release_entry num gen c)) |} ns st2 -> quiet_history st ns st2.

(** Prev pointers of a file: reading the section at offset [o] succeeds (after some earlier sections) and its Prev is [p] *)
Definition prev_of (d : dictionary) (decode : list (bytes * obj) -> bytes -> res bytes) (file : bytes) (o p : Z) : Prop :=
  exists before chain' sec, read_section d decode file before o = Ok (chain', sec) /\
    sm_find (str "Prev") (s_trailer sec) = Some (OInt p).
(** the Prev pointers lead from [o] to itself *)
Definition prev_cycle d decode file (o : Z) : Prop := clos_trans Z (prev_of d decode file) o o.
Definition prev_path d decode file (o p : Z) : Prop := clos_refl_trans Z (prev_of d decode file) o p.

(** Abstract containers: a dictionary is a function from keys to optional values, an array is a sequence. *)
From Coq Require Import List NArith Bool Sorted.
From Verif.Model Require Import Base SMap Containers.
Import ListNotations.
Local Open Scope N_scope.

Section Map.
Context {K V : Type} (eqb : K -> K -> bool).
Definition fmap := K -> option V.
Definition fm_empty : fmap := fun _ => None.
Definition fm_set (m : fmap) (k : K) (v : V) : fmap := fun k' => if eqb k' k then Some v else m k'.
Definition fm_del (m : fmap) (k : K) : fmap := fun k' => if eqb k' k then None else m k'.
Definition present (m : fmap) (k : K) : bool := match m k with Some _ => true | None => false end.

(** What a caller expects of inserting: without overwrite a present key is an error and nothing changes; with overwrite the
    new value replaces the old one. *)
Definition fm_insert (m : fmap) (k : K) (v : V) (overwrite : bool) : fmap * res bool :=
  if negb overwrite && present m k then (m, Throw EDuplicateKey) else (fm_set m k v, Ok true).
Definition fm_remove (m : fmap) (k : K) : fmap * res bool :=
  (fm_del m k, Ok (present m k)).
End Map.
Arguments fmap K V : clear implicits.

(** One dictionary call on the abstract map.  Merge keeps present entries and adds the others. *)
Definition map_step {V : Type} (m : fmap bytes V) (o : dict_op V) : fmap bytes V * res bool :=
  match o with
  | DInsert k v ow => fm_insert beq m k v ow
  | DRemove k => fm_remove beq m k
  | DClear => (fm_empty, Ok true)
  | DMerge other => (fun k => match m k with Some v => Some v | None => sm_find k other end, Ok true)
  end.

Fixpoint map_run {V : Type} (m : fmap bytes V) (os : list (dict_op V)) : fmap bytes V * list (res bool) :=
  match os with
  | [] => (m, [])
  | o :: t => let '(m1, a) := map_step m o in let '(m2, l) := map_run m1 t in (m2, a :: l)
  end.

Definition amap_step {V : Type} (m : fmap N V) (o : attr_op V) : fmap N V * res bool :=
  match o with
  | TAdd t v ow => fm_insert N.eqb m t v ow
  | TRemove t => fm_remove N.eqb m t
  | TClear => (fm_empty, Ok true)
  end.

Fixpoint amap_run {V : Type} (m : fmap N V) (os : list (attr_op V)) : fmap N V * list (res bool) :=
  match os with
  | [] => (m, [])
  | o :: t => let '(m1, a) := amap_step m o in let '(m2, l) := amap_run m1 t in (m2, a :: l)
  end.

(** Entries of a dictionary in iteration order: keys strictly increase. *)
Definition ordered {V : Type} (m : smap V) : Prop :=
  StronglySorted (fun a b => buffer_ltb (fst a) (fst b) = true) m.

(** Keys are byte strings; the argument of a merge is a dictionary. *)
Definition op_keys_ok {V : Type} (o : dict_op V) : Prop :=
  match o with
  | DInsert k _ _ | DRemove k => all_bytes k
  | DClear => True
  | DMerge other => Forall (fun e => all_bytes (fst e)) other /\ ordered other
  end.

(** Everything a caller can see of dictionary [m] is what the abstract map [f] says. *)
Record looks_like {V : Type} (m : smap V) (f : fmap bytes V) : Prop := {
  ll_find : forall k, all_bytes k -> dict_find m k = match f k with Some v => Ok v | None => Throw EGeneral end;
  ll_try_find : forall k, all_bytes k -> dict_try_find m k = f k;
  ll_contains : forall k, all_bytes k -> dict_contains m k = present f k;
  ll_entries : forall k v, all_bytes k -> (In (k, v) m <-> f k = Some v);
  ll_keys : Forall (fun e => all_bytes (fst e)) m;
  ll_order : ordered m;
  ll_size : exists keys, NoDup keys /\ dict_size m = length keys /\
              (forall k, In k keys <-> all_bytes k /\ present f k = true)
}.

(** No insertion with overwrite hits a present key. *)
Fixpoint no_replacement {V : Type} (m : fmap bytes V) (os : list (dict_op V)) : Prop :=
  match os with
  | [] => True
  | o :: t =>
      match o with DInsert k _ true => m k = None | _ => True end /\ no_replacement (fst (map_step m o)) t
  end.
Fixpoint no_attr_replacement {V : Type} (m : fmap N V) (os : list (attr_op V)) : Prop :=
  match os with
  | [] => True
  | o :: t =>
      match o with TAdd k _ true => m k = None | _ => True end /\ no_attr_replacement (fst (amap_step m o)) t
  end.

(** A sequence of length [n] with elements [f 0 .. f (n-1)].  Each call is described by the new length, the new elements and
    the answer. *)
Record seq (V : Type) := { slen : N; sget : N -> option V }.
Arguments slen {V}. Arguments sget {V}.

Definition seq_empty {V : Type} : seq V := {| slen := 0; sget := fun _ => None |}.

Definition seq_step {V : Type} (s : seq V) (o : arr_op V) : seq V * res bool :=
  match o with
  | AAppend v => ({| slen := slen s + 1; sget := fun i => if i =? slen s then Some v else sget s i |}, Ok true)
  | AInsert p v =>
      if p <=? slen s then
        ({| slen := slen s + 1;
            sget := fun i => if i <? p then sget s i else if i =? p then Some v else sget s (i - 1) |}, Ok true)
      else (s, Throw EGeneral)
  | ARemove p =>
      if p <? slen s then
        ({| slen := slen s - 1; sget := fun i => if i <? p then sget s i else sget s (i + 1) |}, Ok true)
      else (s, Ok false)
  | ASet p v =>
      if p <? slen s then ({| slen := slen s; sget := fun i => if i =? p then Some v else sget s i |}, Ok true)
      else (s, Throw EGeneral)
  | AClear => (seq_empty, Ok true)
  end.

Fixpoint seq_run {V : Type} (s : seq V) (os : list (arr_op V)) : seq V * list (res bool) :=
  match os with
  | [] => (s, [])
  | o :: t => let '(s1, a) := seq_step s o in let '(s2, l) := seq_run s1 t in (s2, a :: l)
  end.

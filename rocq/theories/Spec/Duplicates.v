(** What it means that a document still says the same after equal objects were merged. *)
From Coq Require Import List NArith Bool Relations.
From Verif.Model Require Import Base Equality Duplicates.
Import ListNotations.

(** What a value is once a reference is followed.  A missing object is null. *)
Definition target (f : file_objects) (v : value) : value :=
  match v with VRef n g => find_indirect f n g | _ => v end.
Definition is_number (v : value) : Prop := match v with VInt _ | VReal _ => True | _ => False end.
(** Numbers the library's comparison calls equal, or a chain of such numbers (C14 says what that comparison does) *)
Definition number_equal (a b : value) : Prop := is_number a /\ is_number b /\ equals [] a b = Ok true.
Definition same_number : value -> value -> Prop := clos_refl_sym_trans value number_equal.

(** The same kind and contents, elements related by [R] *)
Inductive alike (R : value -> value -> Prop) : value -> value -> Prop :=
| al_null : alike R VNull VNull
| al_bool : forall b, alike R (VBool b) (VBool b)
| al_name : forall n, alike R (VName n) (VName n)
| al_str : forall h h' s, alike R (VStr h s) (VStr h' s)
| al_arr : forall l l', Forall2 R l l' -> alike R (VArr l) (VArr l')
| al_dict : forall l l', Forall2 (fun x y => fst x = fst y /\ R (snd x) (snd y)) l l' -> alike R (VDict l) (VDict l')
| al_stream : forall l l' b, Forall2 (fun x y => fst x = fst y /\ R (snd x) (snd y)) l l' -> alike R (VStream l b) (VStream l' b)
| al_num : forall a b, is_number a -> is_number b -> same_number a b -> alike R a b.

(** [a] in document [f] and [b] in document [f'] cannot be told apart by looking [k] levels deep and following references *)
Fixpoint similar (f f' : file_objects) (k : nat) (a b : value) : Prop :=
  match k with
  | O => True
  | S k' => alike (similar f f' k') (target f a) (target f' b)
  end.
(** … at any depth *)
Definition says_the_same (f f' : file_objects) (a b : value) : Prop := forall k, similar f f' k a b.

(** No references inside *)
Inductive closed : value -> Prop :=
| c_null : closed VNull
| c_bool : forall b, closed (VBool b)
| c_int : forall q, closed (VInt q)
| c_real : forall q, closed (VReal q)
| c_name : forall n, closed (VName n)
| c_str : forall h s, closed (VStr h s)
| c_arr : forall l, Forall closed l -> closed (VArr l)
| c_dict : forall l, Forall (fun e => closed (snd e)) l -> closed (VDict l)
| c_stream : forall l b, Forall (fun e => closed (snd e)) l -> closed (VStream l b).

(** No number is listed twice; no indirect object is itself a reference *)
Definition ids_distinct (l : list ditem) : Prop := NoDup (map d_id l).
Definition no_reference_objects (l : list ditem) : Prop := Forall (fun x => forall n g, d_value x <> VRef n g) l.

(** The hash of the object does not follow changes of its references *)
Definition steady (hash : value -> N) (x : ditem) : Prop :=
  closed (d_value x) \/
  match d_value x with VArr _ | VDict _ => hash_item hash x <> 0%N | VStream _ _ => False | _ => True end.

(** The object is a stream and no other stream of the document has the same data *)
Definition own_data (l : list ditem) (x : ditem) : Prop :=
  exists e b, d_value x = VStream e b /\ forall y e', In y l -> d_value y = VStream e' b -> d_id y = d_id x.

(** The merged document says the same: the trailer, every object that is left (under its old number), and every object of the
    original is still there, itself or as an object that says the same. *)
Definition merged (l : list ditem) (trailer : value) (l' : list ditem) (trailer' : value) : Prop :=
  says_the_same (objects l) (objects l') trailer trailer' /\
  (forall y, In y l' -> exists x, In x l /\ d_id x = d_id y /\ says_the_same (objects l) (objects l') (d_value x) (d_value y)) /\
  (forall x, In x l -> exists y, In y l' /\ says_the_same (objects l) (objects l') (d_value x) (d_value y)).
(** Another object of the document is equal to this one *)
Definition duplicate (l : list ditem) (x : ditem) : Prop :=
  exists y, In y l /\ d_id y <> d_id x /\ equals (objects l) (d_value x) (d_value y) = Ok true.

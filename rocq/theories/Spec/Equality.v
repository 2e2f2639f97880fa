(** What it means for two objects to have the same value. *)
From Coq Require Import List NArith ZArith Bool.
From Verif.Model Require Import Base Arith Equality.
Import ListNotations.

(** The integer an integer object holds. *)
Definition holds_integer (q : numeric) (z : Z) : Prop := q = QSigned z \/ q = QUnsigned z.
(** Two doubles are the same number. *)
Definition same_real (a b : dbl) : Prop :=
  exists e, (e <= de a)%Z /\ (e <= de b)%Z /\ (dm a * 2 ^ (de a - e) = dm b * 2 ^ (de b - e))%Z.

Inductive same : value -> value -> Prop :=
| s_null : same VNull VNull
| s_bool : forall b, same (VBool b) (VBool b)
| s_int : forall q q' z, holds_integer q z -> holds_integer q' z -> same (VInt q) (VInt q')
| s_real : forall r r', same_real r r' -> same (VReal (QReal r)) (VReal (QReal r'))
| s_name : forall n, same (VName n) (VName n)
| s_str : forall h h' v, same (VStr h v) (VStr h' v)
| s_arr : forall l l', Forall2 same l l' -> same (VArr l) (VArr l')
| s_dict : forall l l', Forall2 (fun x y => fst x = fst y /\ same (snd x) (snd y)) l l' -> same (VDict l) (VDict l')
| s_stream : forall l l' b, Forall2 (fun x y => fst x = fst y /\ same (snd x) (snd y)) l l' -> same (VStream l b) (VStream l' b).

(** Values without references, whose integers fit (an unsigned backend below 2^63 - 1) and whose number objects have the backend of
    their kind. *)
Inductive plain : value -> Prop :=
| p_null : plain VNull
| p_bool : forall b, plain (VBool b)
| p_int : forall z, (- 2 ^ 63 <= z < 2 ^ 63)%Z -> plain (VInt (QSigned z))
| p_uint : forall z, (0 <= z < 2 ^ 63 - 1)%Z -> plain (VInt (QUnsigned z))
| p_real : forall r, plain (VReal (QReal r))
| p_name : forall n, plain (VName n)
| p_str : forall h v, plain (VStr h v)
| p_arr : forall l, Forall plain l -> plain (VArr l)
| p_dict : forall l, Forall (fun e => plain (snd e)) l -> plain (VDict l)
| p_stream : forall l b, Forall (fun e => plain (snd e)) l -> plain (VStream l b).

(** No integer is opposite a real: numbers in the same place of both trees are of one kind. *)
Fixpoint same_kinds (a b : value) {struct a} : Prop :=
  match a, b with
  | VInt _, VReal _ | VReal _, VInt _ => False
  | VArr l, VArr l' =>
      (fix loop (l l' : list value) {struct l} : Prop :=
         match l, l' with x :: t, y :: t' => same_kinds x y /\ loop t t' | _, _ => True end) l l'
  | VDict l, VDict l' | VStream l _, VStream l' _ =>
      (fix loop (l l' : list (bytes * value)) {struct l} : Prop :=
         match l, l' with x :: t, y :: t' => same_kinds (snd x) (snd y) /\ loop t t' | _, _ => True end) l l'
  | _, _ => True
  end.

(** ** References: the chain of references that starts at a value *)
Inductive leads_to (f : file_objects) : value -> value -> Prop :=
| lead_here : forall v, (forall n g, v <> VRef n g) -> leads_to f v v
| lead_next : forall n g v, leads_to f (find_indirect f n g) v -> leads_to f (VRef n g) v.

(** utils/buffer.cpp: comparison of byte buffers *)
From Coq Require Import List NArith ZArith Bool.
From Verif.Model Require Import Base SMap.
Import ListNotations.
Local Open Scope N_scope.

(** Buffer::Equals, buffer.cpp:45-47 *)
Definition buffer_equals (a b : bytes) : bool := beq a b.

(** Buffer::LessThan (buffer.cpp:49-51) is [buffer_ltb] in Model/SMap.v. *)

(** Buffer::ValueEqualLessThan, buffer.cpp:53-78 *)
Fixpoint value_le_same (a b : bytes) : bool :=
  match a, b with
  | x :: a', y :: b' => if negb (x =? y) then x <? y else value_le_same a' b'
  | _, _ => true
  end.
Definition value_le (a b : bytes) : bool :=
  if negb (Nat.eqb (length a) (length b)) then Nat.ltb (length a) (length b) else value_le_same a b.

(** C strncmp(s, t, n) = 0 where [s] is a C string (its bytes without the final zero) and [t] has n bytes:
    comparison ends at a zero byte in both *)
Fixpoint strncmp_eq (s t : bytes) {struct t} : bool :=
  match t with
  | [] => true
  | y :: t' => match s with
               | [] => y =? 0
               | x :: s' => (x =? y) && strncmp_eq s' t'
               end
  end.
(** operator==(const char*, const Buffer&), buffer.cpp:80-93 *)
Definition buffer_eq_cstr (buffer cstr : bytes) : bool := strncmp_eq cstr buffer.

(** What a thread is told about its last failure. *)
From Coq Require Import List NArith Bool.
From Verif.Model Require Import Base Errors.
Import ListNotations.
Local Open Scope N_scope.

Definition throws (e : ending) : Prop := match e with Returns _ => False | _ => True end.
(** [e] is the last call of thread [t] in the history that an exception ended *)
Definition last_thrown (t : N) (h : list (N * ending)) (e : ending) : Prop :=
  exists before after, h = before ++ (t, e) :: after /\ throws e /\ forall e', In (t, e') after -> ~ throws e'.
Definition never_thrown (t : N) (h : list (N * ending)) : Prop := forall e, In (t, e) h -> ~ throws e.
(** the code a call must return *)
Definition ending_code (e : ending) : N :=
  match e with Returns c => c | Throws k _ => code k | ThrowsStd _ | ThrowsOther => code KGeneral end.
(** [text] is what the exception says: everything before its first null character *)
Definition says (e : ending) (text : bytes) : Prop :=
  exists what, (e = ThrowsStd what \/ exists k, e = Throws k what) /\ ~ In 0 text /\
    (what = text \/ exists rest, what = text ++ 0 :: rest).

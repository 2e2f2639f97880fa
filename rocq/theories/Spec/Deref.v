(** Where a chain of references ends. *)
From Coq Require Import List NArith Bool.
From Verif.Model Require Import Deref.
Import ListNotations.
Local Open Scope N_scope.

(** Object number [n] leads to the non-reference object [o]. *)
Inductive ends_at (file : N -> iobj) : N -> iobj -> Prop :=
| ends_here : forall n, (forall m, file n <> IRef m) -> ends_at file n (file n)
| ends_later : forall n m o, file n = IRef m -> ends_at file m o -> ends_at file n o.

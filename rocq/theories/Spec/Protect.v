(** ISO 32000-1, table 22: what the number P of an encryption dictionary permits.  The bits are numbered from 1 in the standard. *)
From Coq Require Import ZArith List.
From Verif.Model Require Import Base Xref Chain.
From Verif.Spec Require Import Containers.
Import ListNotations.
Local Open Scope Z_scope.

Inductive action : Type := Print | Modify | Copy | Annotate | FillForms | Extract | Assemble | PrintFaithfully.
Definition bit (a : action) : Z :=
  match a with
  | Print => 3 | Modify => 4 | Copy => 5 | Annotate => 6 | FillForms => 9 | Extract => 10 | Assemble => 11 | PrintFaithfully => 12
  end.
(** P permits the action: its bit is one *)
Definition permits (p : Z) (a : action) : Prop := Z.testbit p (bit a - 1) = true.
(** the flag of the interface that names the action (c_document_encryption_settings.h) *)
Definition flag (a : action) : Z :=
  match a with
  | Print => 4 | Modify => 8 | Copy => 16 | Annotate => 32 | FillForms => 256 | Extract => 512 | Assemble => 1024 | PrintFaithfully => 2048
  end.
(** the program asked that the action be allowed *)
Definition asked (flags : Z) (a : action) : Prop := Z.land flags (flag a) <> 0.

(** The trailer of a section is a dictionary in memory: its keys are texts, in order. *)
Definition proper_trailer (s : section) : Prop := ordered (s_trailer s) /\ Forall (fun e => all_bytes (fst e)) (s_trailer s).

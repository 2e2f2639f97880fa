(** What a cross-reference section records (ISO 32000-1, 7.5.4 and 7.5.8), independent of how it is written and read. *)
From Coq Require Import List NArith ZArith Bool.
From Verif.Model Require Import Base Xref.
Import ListNotations.
Local Open Scope N_scope.

(** the information of an entry: a free object with the next free one, an object at a byte offset, or an object in a stream *)
Inductive record : Set :=
| RFree (num gen next : N)
| RUsed (num gen : N) (offset : Z)
| RStream (num stream index : N).
Definition record_of (e : xentry) : record :=
  match xdata e with
  | KFree next => RFree (xnum e) (xgen e) next
  | KUsed offset _ => RUsed (xnum e) (xgen e) offset
  | KComp stream index => RStream (xnum e) stream index
  end.

(** the entry a section has for a number; what an application that added [es] one after the other expects there *)
Definition entry_for (n : N) (t : list xentry) : option record := option_map record_of (find (fun e => xnum e =? n) t).
Definition last_added (n : N) (es : list xentry) : option record := option_map record_of (find (fun e => xnum e =? n) (rev es)).

(** a section after adding [es] in this order *)
Definition section_of (es : list xentry) : list xentry := fold_left (fun t e => xadd e t) es [].

(** values in the ranges of the file format and of the API *)
Definition entry_in_range (e : xentry) : Prop :=
  xnum e < 2 ^ 63 /\ xgen e <= 65535 /\
  match xdata e with
  | KFree next => next < 2 ^ 63
  | KUsed offset in_use => (0 <= offset < 2 ^ 63)%Z /\ in_use = true
  | KComp stream index => stream < 2 ^ 63 /\ index < 2 ^ 63
  end.
Definition not_compressed (e : xentry) : Prop := match xdata e with KComp _ _ => False | _ => True end.
Definition no_next_free (e : xentry) : Prop := match xdata e with KFree next => next = 0 | _ => True end.

(** a record without the link to the next free object *)
Definition forget_next (r : record) : record :=
  match r with RFree num gen _ => RFree num gen 0 | _ => r end.

(** 7.5.8.2: how many bytes the data of a stream with widths [w] must have *)
Definition bytes_per_entry (w : Z * Z * Z) : Z := let '(a, b, c) := w in (Z.max 0 a + Z.max 0 b + Z.max 0 c)%Z.
Fixpoint entries_announced (index : list Z) : Z :=
  match index with
  | _ :: size :: more => (Z.max 0 size + entries_announced more)%Z
  | _ => 0%Z
  end.

(** C77: a reference stands for the object it was pointed at.  Its number, its text, its target, its hash and its comparison with other
    references are those of the number under which the file has that object, whatever handles the program keeps or releases.
    Spec: Spec/References.v.  Model: Model/References.v. *)
From Coq Require Import List Arith Bool Lia.
From Verif.Model Require Import Base References.
From Verif.Spec Require Import References.
From Verif.Proof Require References.
Import ListNotations.

(** All answers of a careful program are the ones that the meaning gives.
    Missing from the full statement: programs that place an object twice or replace one that is in use, that remove entries, and null. *)
Theorem C77_references_partial : forall h, careful nothing h -> snd (run init h) = meant nothing h.
Proof. intros h C. exact (References.run_meant h init nothing References.inv_init C). Qed.

(** What is missing is false, after any careful history.  The object a reference was pointed at is replaced in its entry while the program
    has a handle of it: asking for the number throws out of the C interface, and the reference cannot be written ... *)
Theorem C77_replaced_refuted : forall h r o n o2,
  careful nothing h -> points (after h) r o n -> has_entry (after h) n = true -> has (after h) o2 = true -> o2 <> o ->
  snd (run init (h ++ [Place n o2; Number r; Text r])) = meant nothing h ++ [ADone; ACrash; AError EGeneral].
Proof.
  intros h r o n o2 C P Hk Hh Hne. destruct (References.run_after h [Place n o2; Number r; Text r] C) as (s & I & ->).
  rewrite (References.replaced s (after h) r o n o2 I P Hk Hh Hne). reflexivity.
Qed.
(** ... but if the handle is released before, the number is the one it always was, and the reference has no target. *)
Theorem C77_handle_refuted : forall h r o n o2,
  careful nothing h -> points (after h) r o n -> has_entry (after h) n = true -> has (after h) o2 = true -> o2 <> o ->
  snd (run init (h ++ [Release o; Place n o2; Number r; Text r; Target r]))
  = meant nothing h ++ [ADone; ADone; ANumber n; ANumber n; AError EFileDisposed].
Proof.
  intros h r o n o2 C P Hk Hh Hne. destruct (References.run_after h [Release o; Place n o2; Number r; Text r; Target r] C) as (s & I & ->).
  rewrite (References.replaced_released s (after h) r o n o2 I P Hk Hh Hne). reflexivity.
Qed.
(** An object that is put under a second number: the reference changes its number but not its hash, so two references that are equal have
    different hashes. *)
Theorem C77_moved_refuted : forall h r o n k,
  careful nothing h -> points (after h) r o n -> has_entry (after h) k = true -> placed (after h) k = None ->
  let r' := S (references (after h)) in
  snd (run init (h ++ [Hash r; Place k o; Number r; Hash r; NewReference; PointAt r' o; Equal r r'; Hash r']))
  = meant nothing h ++ [ANumber n; ADone; ANumber k; ANumber n; AReference r'; ADone; ABool true; ANumber k].
Proof.
  intros h r o n k C P Hk Hf r'.
  destruct (References.run_after h [Hash r; Place k o; Number r; Hash r; NewReference; PointAt r' o; Equal r r'; Hash r'] C) as (s & I & ->).
  unfold r'. rewrite (References.moved s (after h) r o n k I P Hk Hf). reflexivity.
Qed.
(** When another object is then put there, the object is still the one under its first number, but references to it fail. *)
Theorem C77_orphan_refuted : forall h r o n k o2,
  careful nothing h -> points (after h) r o n -> has_entry (after h) k = true -> placed (after h) k = None ->
  has (after h) o2 = true -> o2 <> o ->
  snd (run init (h ++ [Place k o; Place k o2; Fetch n; Number r; Text r]))
  = meant nothing h ++ [ADone; ADone; AObject o; ACrash; AError EGeneral].
Proof.
  intros h r o n k o2 C P Hk Hf Hh Hne. destruct (References.run_after h [Place k o; Place k o2; Fetch n; Number r; Text r] C) as (s & I & ->).
  rewrite (References.orphan s (after h) r o n k o2 I P Hk Hf Hh Hne). reflexivity.
Qed.
(** Pointing a reference at null is accepted and changes nothing: it still names the object. *)
Theorem C77_null_refuted : forall h r o n,
  careful nothing h -> points (after h) r o n -> has (after h) 0 = true ->
  snd (run init (h ++ [PointAt r 0; Number r])) = meant nothing h ++ [ADone; ANumber n].
Proof.
  intros h r o n C P Hz. destruct (References.run_after h [PointAt r 0; Number r] C) as (s & I & ->).
  rewrite (References.pointed_at_null s (after h) r o n I P Hz). reflexivity.
Qed.
(** The entry is removed while the program has a handle of the object. *)
Theorem C77_removed_refuted : forall h r o n,
  careful nothing h -> points (after h) r o n ->
  snd (run init (h ++ [RemoveEntry n; ReleaseEntry n; Number r; Text r])) = meant nothing h ++ [ABool true; ADone; ACrash; AError EGeneral].
Proof.
  intros h r o n C P. destruct (References.run_after h [RemoveEntry n; ReleaseEntry n; Number r; Text r] C) as (s & I & ->).
  rewrite (References.removed s (after h) r o n I P). reflexivity.
Qed.

(** A careful program: an object is placed, pointed at and released, a reference from the file is followed, and its object is replaced. *)
Definition C77_program : list op :=
  [NewObject; Allocate; Place 1 1; NewReference; PointAt 1 1; Release 1; Number 1; Target 1;
   ReadReference 2; Target 2; NewObject; Allocate; Place 2 2; Target 2; Equal 1 2; Hash 2; Release 2; NewObject; Place 2 3; Target 2; Number 2].
Example C77_case :
  careful nothing C77_program
  /\ snd (run init C77_program)
     = [AObject 1; AEntry 1; ADone; AReference 1; ADone; ADone; ANumber 1; AObject 1;
        AReference 2; AObject 0; AObject 2; AEntry 2; ADone; AObject 2; ABool false; ANumber 2; ADone; AObject 3; ADone; AObject 3; ANumber 2].
Proof.
  split; [|vm_compute; reflexivity]. cbn.
  repeat match goal with
  | |- _ /\ _ => split
  | |- True => exact I
  | |- _ <> _ => discriminate
  | |- _ = None => reflexivity
  | |- forall old, _ = Some old -> _ => let H := fresh in intros old H; first [discriminate H | assert (E : old = 2) by (cbv in H; congruence); subst old]
  end.
  - reflexivity.
  - intros r Hr Hn. destruct r as [|[|[|r]]]; try discriminate Hr; try discriminate Hn. reflexivity.
Qed.
(** The hypotheses of the refutations are met: a second entry, a second object. *)
Example C77_points_case :
  let h := [NewObject; Allocate; Place 1 1; NewReference; PointAt 1 1; Allocate; NewObject] in
  careful nothing h /\ points (after h) 1 1 1 /\ has_entry (after h) 1 = true /\ has_entry (after h) 2 = true
  /\ placed (after h) 2 = None /\ has (after h) 2 = true /\ has (after h) 0 = true.
Proof.
  cbn. repeat match goal with
  | |- _ /\ _ => split
  | |- True => exact I
  | |- _ <> _ => discriminate
  | |- _ = _ => reflexivity
  | |- forall old, _ = Some old -> _ => intros old H; discriminate H
  end. repeat split.
Qed.

Print Assumptions C77_references_partial.
Print Assumptions C77_replaced_refuted.
Print Assumptions C77_handle_refuted.
Print Assumptions C77_moved_refuted.
Print Assumptions C77_orphan_refuted.
Print Assumptions C77_null_refuted.
Print Assumptions C77_removed_refuted.

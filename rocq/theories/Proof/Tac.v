(** Shared tactics and small facts about [res] and lists. *)
From Coq Require Import List NArith ZArith Bool Lia.
From Coq Require Export ZifyBool ZifyNat ZifyN.
From Verif.Model Require Import Base.
Import ListNotations.

Ltac Zify.zify_post_hook ::= Z.div_mod_to_equations.

(** case analysis on the first [if] of the goal, comparisons turned into hypotheses *)
Ltac cif :=
  match goal with
  | |- context [if ?b then _ else _] => destruct b eqn:?
  end.
Ltac cif_in H :=
  match type of H with
  | context [if ?b then _ else _] => destruct b eqn:?
  end.

Lemma rbind_ok : forall {A B} (m : res A) (f : A -> res B) b,
  rbind m f = Ok b -> exists a, m = Ok a /\ f a = Ok b.
Proof. intros A B m f b H. destruct m; simpl in H; try discriminate. eauto. Qed.

Lemma rbind_nofuel : forall {A B} (m : res A) (f : A -> res B),
  m <> NoFuel -> (forall a, m = Ok a -> f a <> NoFuel) -> rbind m f <> NoFuel.
Proof. intros A B m f Hm Hf. destruct m; simpl; try discriminate; auto. Qed.

(** finite sweep over all byte values *)
Definition sweep (P : N -> bool) : bool := forallb P (nrange 0 256).

Lemma nrange_in : forall k from x, (from <= x < from + N.of_nat k)%N -> In x (nrange from k).
Proof.
  induction k as [|k IH]; intros from x Hx; simpl; [lia|].
  destruct (N.eq_dec from x) as [->|Hne]; [left; reflexivity|right; apply IH; lia].
Qed.

Lemma sweep_byte : forall P, sweep P = true -> forall b, is_byte b -> P b = true.
Proof.
  intros P H b Hb. unfold sweep in H. rewrite forallb_forall in H.
  apply H, nrange_in. unfold is_byte in Hb. lia.
Qed.

Lemma span_spec : forall {A} (f : A -> bool) l p r, span f l = (p, r) ->
  l = p ++ r /\ forallb f p = true /\ (match r with [] => True | x :: _ => f x = false end).
Proof.
  intros A f. induction l as [|a l IH]; intros p r H; simpl in H.
  - inversion H; subst; simpl; auto.
  - destruct (f a) eqn:Ha.
    + destruct (span f l) as [p' r'] eqn:Hs. inversion H; subst.
      destruct (IH p' r eq_refl) as (H1 & H2 & H3). simpl. rewrite Ha, H2, H1. auto.
    + inversion H; subst. simpl. auto.
Qed.

Lemma span_app : forall {A} (f : A -> bool) p r, forallb f p = true ->
  (match r with [] => True | x :: _ => f x = false end) -> span f (p ++ r) = (p, r).
Proof.
  intros A f. induction p as [|a p IH]; intros r Hp Hr; simpl.
  - destruct r as [|x r]; simpl; [reflexivity|]. rewrite Hr. reflexivity.
  - simpl in Hp. apply andb_true_iff in Hp. destruct Hp as [Ha Hp]. rewrite Ha, (IH r Hp Hr). reflexivity.
Qed.

(** Lemmas for C88. *)
From Coq Require Import List NArith ZArith Lia Bool Arith.
From Verif.Model Require Import Base Object Containers Indexes.
From Verif.Spec Require Import Indexes.
From Verif.Proof Require Import Tac.
Import ListNotations.

Section Proofs.
Context {V : Type}.
Implicit Types l : list V.

Lemma split_at : forall l i, (i < N.of_nat (length l))%N -> exists a v b, l = a ++ v :: b /\ i = N.of_nat (length a) /\
  nth_error l (N.to_nat i) = Some v /\ firstn (N.to_nat i) l = a /\ skipn (S (N.to_nat i)) l = b.
Proof.
  intros l i H. destruct (nth_error l (N.to_nat i)) as [v|] eqn:E; [|apply nth_error_None in E; lia].
  apply nth_error_split in E. destruct E as (a & b & -> & Hl). exists a, v, b. split; [reflexivity|]. split; [lia|]. split; [reflexivity|].
  rewrite <- Hl. split; [rewrite firstn_app, Nat.sub_diag, firstn_all, firstn_O, app_nil_r; reflexivity|].
  rewrite skipn_app. replace (S (length a) - length a) with 1 by lia. rewrite skipn_all2 by lia. reflexivity.
Qed.
Lemma at_does : forall l i, does l (At i) l (do v <- arr_get l i;; Ok (Value v)).
Proof.
  intros l i. unfold arr_get, arr_size. destruct (N.ltb_spec i (N.of_nat (length l))) as [H|H].
  - destruct (split_at l i H) as (a & v & b & El & Ei & En & _). rewrite En. cbn [rbind]. subst i. rewrite El. apply d_at.
  - cbn [rbind]. apply d_at_beyond. exact H.
Qed.
Lemma insert_does : forall l i v, (i <= N.of_nat (length l))%N -> does l (Insert i v) (firstn (N.to_nat i) l ++ v :: skipn (N.to_nat i) l) (Ok Done).
Proof.
  intros l i v H. pose proof (d_insert (firstn (N.to_nat i) l) v (skipn (N.to_nat i) l)) as D.
  rewrite firstn_skipn in D. replace (N.of_nat (length (firstn (N.to_nat i) l))) with i in D by (rewrite firstn_length; lia). exact D.
Qed.
Lemma insert_length : forall l i (v : V), (i <= N.of_nat (length l))%N -> N.of_nat (length (firstn (N.to_nat i) l ++ v :: skipn (N.to_nat i) l)) = (N.of_nat (length l) + 1)%N.
Proof. intros l i v H. rewrite app_length, firstn_length. cbn [length]. rewrite skipn_length. lia. Qed.
Lemma remove_does : forall l i, (i < N.of_nat (length l))%N -> does l (Remove i) (firstn (N.to_nat i) l ++ skipn (S (N.to_nat i)) l) (Ok Done).
Proof. intros l i H. destruct (split_at l i H) as (a & v & b & El & Ei & _ & E1 & E2). rewrite E1, E2. rewrite El, Ei. apply d_remove. Qed.
Lemma remove_length : forall l i, (i < N.of_nat (length l))%N -> N.of_nat (length (firstn (N.to_nat i) l ++ skipn (S (N.to_nat i)) l)) = (N.of_nat (length l) - 1)%N.
Proof. intros l i H. rewrite app_length, firstn_length, skipn_length. lia. Qed.

Lemma array_does : forall l c, exists l' r, array_object l c = (l', r) /\ does l c l' r.
Proof.
  intros l [|i|v|i v|i|]; cbn [array_object]; try (eexists; eexists; split; [reflexivity|]; constructor).
  - eexists. eexists. split; [reflexivity|apply at_does].
  - unfold arr_insert, arr_size. destruct (N.ltb_spec (N.of_nat (length l)) i) as [H|H]; eexists; eexists; (split; [reflexivity|]); [apply d_insert_beyond; exact H|apply insert_does; exact H].
  - unfold arr_remove, arr_size. destruct (N.leb_spec (N.of_nat (length l)) i) as [H|H]; eexists; eexists; (split; [reflexivity|]); [apply d_remove_beyond; exact H|apply remove_does; exact H].
Qed.
Lemma array_calls : forall cs l, exists l' rs, calls array_object l cs = (l', rs) /\ all_do l cs l' rs.
Proof.
  induction cs as [|c t IH]; intros l; cbn [calls]; [eexists; eexists; split; [reflexivity|constructor]|].
  destruct (array_does l c) as (l1 & r & E & H). rewrite E. destruct (IH l1) as (l2 & rs & E2 & H2). rewrite E2.
  destruct r as [x|e| |]; try (eexists; eexists; split; [reflexivity|econstructor; eassumption]). inversion H.
Qed.

Lemma buffer_calls : forall cs l, within 1 (N.of_nat (length l)) cs -> Forall no_clear cs -> exists l' rs, calls buffer_array l cs = (l', rs) /\ all_do l cs l' rs.
Proof.
  induction cs as [|c t IH]; intros l W F; [eexists; eexists; split; [reflexivity|constructor]|].
  inversion F as [|c' t' Hc Ft]; subst. cbn [calls].
  assert (G : forall l1 r, buffer_array l c = (l1, r) -> r <> Undef -> does l c l1 r -> within 1 (N.of_nat (length l1)) t ->
            exists l' rs, match buffer_array l c with (l', Undef) => (l', [Undef]) | (l', r) => let '(l'', rs) := calls buffer_array l' t in (l'', r :: rs) end = (l', rs) /\ all_do l (c :: t) l' rs).
  { intros l1 r E Hr D W'. rewrite E. destruct (IH l1 W' Ft) as (l2 & rs & E2 & H2). rewrite E2.
    destruct r; try contradiction; (eexists; eexists; split; [reflexivity|econstructor; eassumption]). }
  destruct c as [|i|v|i v|i|]; cbn [within] in W.
  - eapply G; [reflexivity|discriminate|constructor|exact W].
  - eapply G; [reflexivity| |apply at_does|exact W]. intros E. pose proof (at_does l i) as D. rewrite E in D. inversion D.
  - eapply G; [reflexivity|discriminate|constructor|]. rewrite app_length. cbn [length]. replace (N.of_nat (length l + 1)) with (N.of_nat (length l) + 1)%N by lia. exact W.
  - destruct W as [Hi W]. eapply (G _ (Ok Done)); [|discriminate|apply insert_does; exact Hi|rewrite insert_length by exact Hi; exact W].
    cbn [buffer_array]. unfold insert_at, arr_size. destruct (N.leb_spec i (N.of_nat (length l))); [reflexivity|lia].
  - destruct W as [Hi W]. destruct (N.ltb_spec i (N.of_nat (length l))) as [H|H].
    + eapply (G _ (Ok Done)); [|discriminate|apply remove_does; exact H|rewrite remove_length by exact H; exact W].
      cbn [buffer_array]. unfold erase_at, arr_size. destruct (N.ltb_spec (N.of_nat (length l)) i); [lia|]. destruct (N.eqb_spec i (N.of_nat (length l))); [lia|].
      destruct (N.ltb_spec i (N.of_nat (length l))); [reflexivity|lia].
    + eapply (G l (Throw EObjectMissing)); [|discriminate|apply d_remove_beyond; exact H|exact W].
      cbn [buffer_array]. unfold arr_size. destruct (N.ltb_spec (N.of_nat (length l)) i); [lia|]. destruct (N.eqb_spec i (N.of_nat (length l))); [reflexivity|lia].
  - contradiction Hc. reflexivity.
Qed.
Lemma instruction_calls : forall cs l, within 0 (N.of_nat (length l)) cs -> exists l' rs, calls instruction_collection l cs = (l', rs) /\ all_do l cs l' rs.
Proof.
  induction cs as [|c t IH]; intros l W; [eexists; eexists; split; [reflexivity|constructor]|]. cbn [calls].
  assert (G : forall l1 r, instruction_collection l c = (l1, r) -> r <> Undef -> does l c l1 r -> within 0 (N.of_nat (length l1)) t ->
            exists l' rs, match instruction_collection l c with (l', Undef) => (l', [Undef]) | (l', r) => let '(l'', rs) := calls instruction_collection l' t in (l'', r :: rs) end = (l', rs) /\ all_do l (c :: t) l' rs).
  { intros l1 r E Hr D W'. rewrite E. destruct (IH l1 W') as (l2 & rs & E2 & H2). rewrite E2.
    destruct r; try contradiction; (eexists; eexists; split; [reflexivity|econstructor; eassumption]). }
  destruct c as [|i|v|i v|i|]; cbn [within] in W.
  - eapply G; [reflexivity|discriminate|constructor|exact W].
  - eapply G; [reflexivity| |apply at_does|exact W]. intros E. pose proof (at_does l i) as D. rewrite E in D. inversion D.
  - eapply G; [reflexivity|discriminate|constructor|]. rewrite app_length. cbn [length]. replace (N.of_nat (length l + 1)) with (N.of_nat (length l) + 1)%N by lia. exact W.
  - destruct W as [Hi W]. eapply (G _ (Ok Done)); [|discriminate|apply insert_does; exact Hi|rewrite insert_length by exact Hi; exact W].
    cbn [instruction_collection]. unfold insert_at, arr_size. destruct (N.leb_spec i (N.of_nat (length l))); [reflexivity|lia].
  - destruct W as [Hi W]. assert (H : (i < N.of_nat (length l))%N) by lia. destruct (N.ltb_spec i (N.of_nat (length l))) as [_|X]; [|lia].
    eapply (G _ (Ok Done)); [|discriminate|apply remove_does; exact H|rewrite remove_length by exact H; exact W].
    cbn [instruction_collection]. unfold erase_at, arr_size. destruct (N.ltb_spec i (N.of_nat (length l))); [reflexivity|lia].
  - eapply G; [reflexivity|discriminate|constructor|exact W].
Qed.
End Proofs.

Lemma flat_length : forall ps, length (flat ps) = 2 * length ps.
Proof. induction ps as [|[a b] t IH]; cbn [flat length]; lia. Qed.
Lemma flat_even : forall ps, Nat.odd (length (flat ps)) = false.
Proof. intros ps. rewrite flat_length. unfold Nat.odd. rewrite Nat.even_mul. reflexivity. Qed.
Lemma flat_nth : forall ps i p, nth_error ps i = Some p -> nth_error (flat ps) (2 * i) = Some (fst p) /\ nth_error (flat ps) (S (2 * i)) = Some (snd p).
Proof.
  induction ps as [|[a b] t IH]; intros [|i] p H; try discriminate H.
  - injection H as <-. split; reflexivity.
  - cbn [nth_error] in H. destruct (IH i p H) as [A B]. replace (2 * S i) with (S (S (2 * i))) by lia. cbn [flat nth_error]. split; assumption.
Qed.
Lemma byte_range_at : forall l i x y, (N.of_nat (length l) < 2 ^ 64)%N -> nth_error l i = Some x -> nth_error l (S i) = Some y -> byte_range l (N.of_nat i) = Ok (x, y).
Proof.
  intros l i x y Hl Ex Ey. assert (H : S i < length l) by (apply nth_error_Some; congruence).
  assert (G : forall k v, nth_error l k = Some v -> arr_get l (N.of_nat k) = Ok v).
  { intros k v E. unfold arr_get, arr_size. assert (k < length l) by (apply nth_error_Some; congruence). destruct (N.ltb_spec (N.of_nat k) (N.of_nat (length l))); [|lia]. rewrite Nat2N.id, E. reflexivity. }
  unfold byte_range. rewrite (G i x Ex). cbn [rbind]. rewrite N.mod_small by lia. replace (N.of_nat i + 1)%N with (N.of_nat (S i)) by lia. rewrite (G (S i) y Ey). reflexivity.
Qed.

(** Facts about textual numbers. *)
From Coq Require Import List NArith ZArith Bool Lia.
From Verif.Model Require Import Base Char Numbers.
From Verif.Proof Require Import Tac.
Import ListNotations.
Local Open Scope N_scope.

Lemma digit_in_char : forall base v, v < base -> base <= 16 -> digit_in base (digit_char v) = Some v.
Proof.
  intros base v Hv Hb. unfold digit_in, digit_val, digit_char, is_numeric.
  destruct (v <? 10) eqn:E.
  - replace ((48 <=? 48 + v) && (48 + v <=? 57)) with true by lia.
    replace (48 + v - 48) with v by lia. replace (v <? base) with true by lia. reflexivity.
  - replace ((48 <=? 55 + v) && (55 + v <=? 57)) with false by lia.
    replace ((97 <=? 55 + v) && (55 + v <=? 122)) with false by lia.
    replace ((65 <=? 55 + v) && (55 + v <=? 90)) with true by lia.
    replace (55 + v - 55) with v by lia. replace (v <? base) with true by lia. reflexivity.
Qed.

Lemma pow2_S : forall f : nat, 2 ^ N.of_nat (S f) = 2 * 2 ^ N.of_nat f.
Proof. intros f. rewrite Nat2N.inj_succ, N.pow_succ_r'. reflexivity. Qed.

Lemma div_lt_pow2 : forall base n f, 2 <= base -> n < 2 ^ N.of_nat (S f) -> n / base < 2 ^ N.of_nat f.
Proof.
  intros base n f Hb Hn. rewrite pow2_S in Hn.
  apply N.div_lt_upper_bound; [lia|]. nia.
Qed.

Lemma take_digits_aux : forall base, 2 <= base -> base <= 16 ->
  forall f n acc, n < 2 ^ N.of_nat (S f) ->
  exists j : nat, (1 <= j)%nat /\
    forall v k, take_digits base (digits_aux base (S f) n acc) v k =
                take_digits base acc (v * base ^ N.of_nat j + n) (k + j)%nat.
Proof.
  intros base Hb Hb'. induction f as [|f IH]; intros n acc Hn.
  - exists 1%nat. split; [lia|]. intros v k. simpl N.of_nat in Hn. change (2 ^ 1) with 2 in Hn.
    cbn [digits_aux]. rewrite N.div_small by lia. rewrite N.mod_small by lia. cbn [N.eqb].
    cbn [take_digits]. rewrite digit_in_char by lia.
    rewrite N.pow_1_r. rewrite Nat.add_1_r. reflexivity.
  - assert (Hm : n mod base < base) by (apply N.mod_lt; lia).
    assert (Hq := div_lt_pow2 base n (S f) Hb Hn).
    cbn [digits_aux]. destruct (n / base =? 0) eqn:E.
    + exists 1%nat. split; [lia|]. intros v k. cbn [take_digits].
      rewrite digit_in_char by lia. rewrite N.pow_1_r, Nat.add_1_r.
      replace (n mod base) with n; [reflexivity|].
      symmetry. apply N.mod_small. apply N.eqb_eq in E.
      rewrite N.div_small_iff in E by lia. exact E.
    + destruct (IH (n / base) (digit_char (n mod base) :: acc) Hq) as (j & Hj & Hrec).
      exists (S j). split; [lia|]. intros v k.
      change (take_digits base (digits_aux base (S f) (n / base) (digit_char (n mod base) :: acc)) v k =
              take_digits base acc (v * base ^ N.of_nat (S j) + n) (k + S j)%nat).
      rewrite Hrec. cbn [take_digits]. rewrite digit_in_char by lia.
      f_equal; [|lia].
      rewrite Nat2N.inj_succ, N.pow_succ_r'.
      pose proof (N.div_mod' n base) as Hdm. nia.
Qed.

Lemma size_nat_bound : forall n, n < 2 ^ N.of_nat (S (N.size_nat n)).
Proof.
  intros n. rewrite pow2_S.
  assert (H : n < 2 ^ N.of_nat (N.size_nat n)).
  { replace (N.of_nat (N.size_nat n)) with (N.size n).
    - destruct n as [|p]; [cbn; lia|]. apply N.size_gt.
    - destruct n as [|p]; [reflexivity|]. cbn. clear. induction p; cbn; rewrite ?IHp; try reflexivity; lia. }
  lia.
Qed.

Lemma take_digits_digits : forall base n rest, 2 <= base -> base <= 16 ->
  exists j : nat, (1 <= j)%nat /\
    forall v k, take_digits base (digits base n ++ rest) v k =
                take_digits base rest (v * base ^ N.of_nat j + n) (k + j)%nat.
Proof.
  intros base n rest Hb Hb'.
  assert (Happ : forall f m acc, digits_aux base f m acc ++ rest = digits_aux base f m (acc ++ rest)).
  { induction f as [|f IH]; intros m acc; cbn [digits_aux]; [reflexivity|].
    destruct (m / base =? 0); [reflexivity|]. rewrite IH. reflexivity. }
  unfold digits. rewrite Happ. cbn [app].
  apply take_digits_aux; auto. apply size_nat_bound.
Qed.

(** every character of a numeral is a digit character of that base *)
Lemma digits_aux_forall : forall base (P : N -> Prop), 0 < base ->
  (forall v, v < base -> P (digit_char v)) ->
  forall f n acc, Forall P acc -> Forall P (digits_aux base f n acc).
Proof.
  intros base P Hb HP. induction f as [|f IH]; intros n acc Hacc; cbn [digits_aux]; [assumption|].
  assert (Hm : n mod base < base) by (apply N.mod_lt; lia).
  destruct (n / base =? 0); [constructor; auto|]. apply IH. constructor; auto.
Qed.

Lemma digits_forall : forall base (P : N -> Prop), 0 < base -> (forall v, v < base -> P (digit_char v)) ->
  forall n, Forall P (digits base n).
Proof. intros. apply digits_aux_forall; auto. Qed.

Lemma digits_aux_length : forall base f n acc, (List.length acc <= List.length (digits_aux base f n acc))%nat.
Proof.
  induction f as [|f IH]; intros n acc; cbn [digits_aux]; [lia|].
  destruct (n / base =? 0); [cbn; lia|]. etransitivity; [|apply IH]. cbn; lia.
Qed.

Lemma digits_nonempty : forall base n, digits base n <> [].
Proof.
  intros base n. unfold digits. cbn [digits_aux].
  destruct (n / base =? 0); [discriminate|].
  intros H. pose proof (digits_aux_length base (N.size_nat n) (n / base) [digit_char (n mod base)]) as HL.
  rewrite H in HL. cbn in HL. lia.
Qed.

Lemma digits_cons : forall base n, exists c t, digits base n = c :: t.
Proof.
  intros base n. destruct (digits base n) as [|c t] eqn:E; [|eauto].
  exfalso. exact (digits_nonempty base n E).
Qed.

Lemma digit_char_10 : forall v, v < 10 -> is_numeric (digit_char v) = true.
Proof. intros v Hv. unfold digit_char, is_numeric. destruct (v <? 10) eqn:E; lia. Qed.

Lemma digits10_numeric : forall n, forallb is_numeric (digits 10 n) = true.
Proof.
  intros n. apply forallb_forall. apply Forall_forall.
  apply digits_forall; [lia|]. apply digit_char_10.
Qed.

Lemma is_numeric_digit_in : forall c, is_numeric c = true -> exists v, digit_in 10 c = Some v /\ v = c - 48 /\ v < 10.
Proof.
  intros c Hc. unfold digit_in, digit_val. rewrite Hc. unfold is_numeric in Hc.
  replace (c - 48 <? 10) with true by lia. exists (c - 48). repeat split; lia.
Qed.

(** number of decimal digits taken from a run of digits followed by a non digit *)
Lemma take_digits_app_stop : forall base rest v k,
  match rest with [] => True | c :: _ => digit_in base c = None end ->
  take_digits base rest v k = (v, k).
Proof. intros base rest v k H. destruct rest as [|c r]; cbn; [reflexivity|]. rewrite H. reflexivity. Qed.

Lemma strtol_digits : forall n rest,
  match rest with [] => True | c :: _ => digit_in 10 c = None end ->
  strtol 10 (digits 10 n ++ rest) = Some (Z.of_N n).
Proof.
  intros n rest Hrest. unfold strtol.
  destruct (digits_cons 10 n) as (c & t & E).
  pose proof (digits10_numeric n) as Hnum. rewrite E in Hnum. cbn [forallb] in Hnum.
  apply andb_true_iff in Hnum. destruct Hnum as [Hc _].
  assert (Hsp : span is_cspace (digits 10 n ++ rest) = ([], digits 10 n ++ rest)).
  { rewrite E. cbn. unfold is_cspace. unfold is_numeric in Hc.
    replace (((9 <=? c) && (c <=? 13)) || (c =? 32)) with false by lia. reflexivity. }
  rewrite Hsp.
  assert (Hsg : match digits 10 n ++ rest with
                | 45 :: t => (true, t) | 43 :: t => (false, t) | _ => (false, digits 10 n ++ rest) end
                = (false, digits 10 n ++ rest)).
  { rewrite E. cbn [app]. unfold is_numeric in Hc.
    destruct c as [|p]; [reflexivity|].
    do 6 (destruct p as [p|p|]; try reflexivity; try (exfalso; lia)). }
  rewrite Hsg. unfold skip_0x. cbn [N.eqb].
  destruct (take_digits_digits 10 n rest) as (j & Hj & Htd); [lia|lia|].
  replace (10 =? 16) with false by reflexivity.
  rewrite Htd. rewrite take_digits_app_stop by exact Hrest.
  destruct (0 + j)%nat as [|j'] eqn:Ej; [lia|]. rewrite N.mul_0_l, N.add_0_l. reflexivity.
Qed.

Lemma strtol_minus_digits : forall n rest,
  match rest with [] => True | c :: _ => digit_in 10 c = None end ->
  strtol 10 (45 :: digits 10 n ++ rest) = Some (- Z.of_N n)%Z.
Proof.
  intros n rest Hrest. unfold strtol. cbn [span is_cspace N.leb N.eqb andb orb].
  change (is_cspace 45) with false. cbn [span].
  destruct (take_digits_digits 10 n rest) as (j & Hj & Htd); [lia|lia|].
  unfold skip_0x. replace (10 =? 16) with false by reflexivity.
  rewrite Htd. rewrite take_digits_app_stop by exact Hrest.
  destruct (0 + j)%nat as [|j'] eqn:Ej; [lia|]. rewrite N.mul_0_l, N.add_0_l. reflexivity.
Qed.

Lemma stoll_digits : forall n, (Z.of_N n <= int64_max)%Z -> stoll (digits 10 n) = Ok (Z.of_N n).
Proof.
  intros n Hn. unfold stoll. rewrite <- (app_nil_r (digits 10 n)), strtol_digits by exact I.
  unfold int64_min, int64_max in *. 
  replace ((- 2 ^ 63 <=? Z.of_N n)%Z && (Z.of_N n <=? 2 ^ 63 - 1)%Z) with true by lia. reflexivity.
Qed.

Lemma stoll_to_string_Z : forall z, (int64_min <= z <= int64_max)%Z -> stoll (to_string_Z z) = Ok z.
Proof.
  intros z Hz. unfold to_string_Z. destruct (z <? 0)%Z eqn:E.
  - unfold stoll. rewrite <- (app_nil_r (digits 10 (Z.to_N (- z)))), strtol_minus_digits by exact I.
    rewrite Z2N.id by lia. rewrite Z.opp_involutive.
    replace ((int64_min <=? z)%Z && (z <=? int64_max)%Z) with true by lia. reflexivity.
  - rewrite stoll_digits; [|rewrite Z2N.id; lia]. rewrite Z2N.id by lia. reflexivity.
Qed.

(** two hexadecimal digits / three octal digits of a byte, by sweep *)
Lemma stoi_02X : forall b, is_byte b -> exists x y, fmt_02X b = [x; y] /\ stoi 16 [x; y] = Ok (Z.of_N b) /\
  (is_numeric x || is_alpha x = true) /\ (is_numeric y || is_alpha y = true).
Proof.
  intros b Hb.
  assert (H := sweep_byte (fun b => match fmt_02X b with
     | [x; y] => match stoi 16 [x; y] with Ok v => (v =? Z.of_N b)%Z | _ => false end
                 && (is_numeric x || is_alpha x) && (is_numeric y || is_alpha y)
     | _ => false end) ltac:(vm_compute; reflexivity) b Hb).
  cbv beta in H. destruct (fmt_02X b) as [|x [|y [|? ?]]]; try discriminate.
  exists x, y. apply andb_true_iff in H. destruct H as [H Hy]. apply andb_true_iff in H. destruct H as [H Hx].
  destruct (stoi 16 [x; y]) as [v| | |]; try discriminate.
  apply Z.eqb_eq in H. subst v. auto.
Qed.

Lemma stoi_03o : forall b, is_byte b -> exists x y z, fmt_03o b = [x; y; z] /\ stoi 8 [x; y; z] = Ok (Z.of_N b) /\
  is_numeric x = true /\ is_numeric y = true /\ is_numeric z = true.
Proof.
  intros b Hb.
  assert (H := sweep_byte (fun b => match fmt_03o b with
     | [x; y; z] => match stoi 8 [x; y; z] with Ok v => (v =? Z.of_N b)%Z | _ => false end
                 && is_numeric x && is_numeric y && is_numeric z
     | _ => false end) ltac:(vm_compute; reflexivity) b Hb).
  cbv beta in H. destruct (fmt_03o b) as [|x [|y [|z [|? ?]]]]; try discriminate.
  exists x, y, z. repeat (apply andb_true_iff in H; let H' := fresh in destruct H as [H H']).
  destruct (stoi 8 [x; y; z]) as [v| | |]; try discriminate.
  apply Z.eqb_eq in H. subst v. auto.
Qed.

Lemma to_uchar_byte : forall b, is_byte b -> to_uchar (Z.of_N b) = Ok b.
Proof.
  intros b Hb. unfold is_byte in Hb. unfold to_uchar.
  replace (Z.of_N b <? 0)%Z with false by lia. replace (Z.of_N b <=? 255)%Z with true by lia.
  rewrite N2Z.id. reflexivity.
Qed.

From Coq Require Import List NArith ZArith QArith Qabs Qpower Lqa Bool Lia.
From Verif.Model Require Import Base Numbers Object Parser Reals.
From Verif.Spec Require Import Grammar Reals.
From Verif.Proof Require Import Tac FileWrite.
Import ListNotations.
Local Open Scope Q_scope.

Definition nq (n : N) : Q := inject_Z (Z.of_N n).
Lemma nq_le : forall a b, (a <= b)%N -> nq a <= nq b.
Proof. intros. unfold nq. rewrite <- Zle_Qle. lia. Qed.
Lemma nq_lt : forall a b, (a < b)%N -> nq a < nq b.
Proof. intros. unfold nq. rewrite <- Zlt_Qlt. lia. Qed.
Lemma nq_le_back : forall a b, nq a <= nq b -> (a <= b)%N.
Proof. intros a b H. unfold nq in H. rewrite <- Zle_Qle in H. lia. Qed.
Lemma nq_lt_back : forall a b, nq a < nq b -> (a < b)%N.
Proof. intros a b H. unfold nq in H. rewrite <- Zlt_Qlt in H. lia. Qed.
Lemma nq_mul : forall a b, nq (a * b) == nq a * nq b.
Proof. intros. unfold nq. rewrite N2Z.inj_mul, inject_Z_mult. reflexivity. Qed.
Lemma nq_add : forall a b, nq (a + b) == nq a + nq b.
Proof. intros. unfold nq. rewrite N2Z.inj_add, inject_Z_plus. reflexivity. Qed.

Definition tw (e : Z) : Q := (2 # 1) ^ e.
Lemma tw_pos : forall e, 0 < tw e.
Proof. intros. unfold tw. apply Qpower_0_lt. reflexivity. Qed.
Lemma tw_add : forall a b, tw (a + b) == tw a * tw b.
Proof. intros. apply Qpower_plus. discriminate. Qed.
Lemma tw_N : forall n, nq (2 ^ n) == tw (Z.of_N n).
Proof. intros n. unfold nq, tw. rewrite N2Z.inj_pow. apply Zpower_Qpower. lia. Qed.
Lemma tw_opp : forall e, tw (- e) == / tw e.
Proof. intros. apply Qpower_opp. Qed.
Lemma tw_le : forall a b, (a <= b)%Z -> tw a <= tw b.
Proof. intros. apply Qpower_le_compat_l; [assumption|discriminate]. Qed.
Lemma tw_lt_back : forall a b, tw a < tw b -> (a < b)%Z.
Proof. intros a b H. apply Qpower_lt_compat_l_inv in H; [exact H|reflexivity]. Qed.
Lemma tw_scale : forall e, (0 <= e)%Z -> nq (2 ^ Z.to_N e) == tw e.
Proof. intros e H. rewrite tw_N, Z2N.id by exact H. reflexivity. Qed.
Definition tn (p : N) : Q := (10 # 1) ^ Z.of_N p.
Lemma tn_N : forall p, nq (10 ^ p) == tn p.
Proof. intros n. unfold nq, tn. rewrite N2Z.inj_pow. apply Zpower_Qpower. lia. Qed.
Lemma tn_pos : forall p, 0 < tn p.
Proof. intros. unfold tn. apply Qpower_0_lt. reflexivity. Qed.
Lemma nq_pos : forall n, (0 < n)%N -> 0 < nq n.
Proof. intros. apply (nq_lt 0). exact H. Qed.
Lemma nq_nonneg : forall n, 0 <= nq n.
Proof. intros. apply (nq_le 0). lia. Qed.

(** rounding *)
Lemma round_div_Z : forall a b, (0 < b)%N ->
  (- Z.of_N b <= 2 * (Z.of_N (round_div a b) * Z.of_N b) - 2 * Z.of_N a <= Z.of_N b)%Z.
Proof.
  intros a b H. unfold round_div. assert (D := N.div_mod a b ltac:(lia)). assert (L := N.mod_lt a b ltac:(lia)).
  set (q := (a / b)%N) in *. set (r := (a mod b)%N) in *. clearbody q r.
  assert (E : (Z.of_N a = Z.of_N b * Z.of_N q + Z.of_N r)%Z) by lia.
  destruct (N.ltb_spec (2 * r) b); [nia|]. destruct (N.ltb_spec b (2 * r)); [nia|]. destruct (N.even q); nia.
Qed.
Lemma round_div_half : forall a b, (0 < b)%N -> - (1 # 2) <= nq (round_div a b) - nq a / nq b <= 1 # 2.
Proof.
  intros a b H. assert (Z := round_div_Z a b H). assert (P := nq_pos b H).
  set (q := round_div a b) in *. clearbody q.
  assert (A : - nq b <= (2 # 1) * (nq q * nq b) - (2 # 1) * nq a <= nq b).
  { unfold nq. rewrite <- inject_Z_mult, <- !(inject_Z_mult 2), <- inject_Z_opp. unfold Qminus. rewrite <- inject_Z_opp, <- inject_Z_plus, <- !Zle_Qle. lia. }
  assert (X : nq a == (nq a / nq b) * nq b) by (field; lra). set (x := nq a / nq b) in *. clearbody x.
  rewrite X in A. set (y := nq b) in *. clearbody y. split; nra.
Qed.
Lemma round_div_best : forall a b k, (0 < b)%N -> Qabs (nq a / nq b - nq (round_div a b)) <= Qabs (nq a / nq b - inject_Z k).
Proof.
  intros a b k H. assert (R := round_div_half a b H). set (x := nq a / nq b) in *. clearbody x.
  destruct (Z.eq_dec k (Z.of_N (round_div a b))) as [->|D]; [apply Qle_refl|].
  assert (S : nq (round_div a b) + 1 <= inject_Z k \/ inject_Z k <= nq (round_div a b) - 1).
  { unfold nq. change 1 with (inject_Z 1). unfold Qminus. rewrite <- inject_Z_opp, <- !inject_Z_plus, <- !Zle_Qle. lia. }
  set (q := nq (round_div a b)) in *. clearbody q. set (z := inject_Z k) in *. clearbody z.
  apply Qabs_case; intros; apply Qabs_case; intros; destruct S; lra.
Qed.
Lemma round_div_unique : forall a b m, (0 < b)%N -> Qabs (nq a / nq b - nq m) < 1 # 2 -> round_div a b = m.
Proof.
  intros a b m H U. assert (R := round_div_half a b H). set (x := nq a / nq b) in *. clearbody x.
  assert (S : nq (round_div a b) - nq m < 1 /\ nq m - nq (round_div a b) < 1).
  { revert U. apply Qabs_case; intros; lra. }
  unfold nq in S. change 1 with (inject_Z 1) in S. unfold Qminus in S. rewrite <- !inject_Z_opp, <- !inject_Z_plus, <- !Zlt_Qlt in S. lia.
Qed.

(** scaling by a power of two *)
Lemma scale_neg : forall m d e, (0 < d)%N -> (e < 0)%Z -> nq (m * 2 ^ Z.to_N (- e)) / nq d == nq m / nq d / tw e.
Proof.
  intros m d e Hd He. rewrite nq_mul, tw_scale, tw_opp by lia. assert (P := nq_pos d Hd). assert (T := tw_pos e). field. split; lra.
Qed.
Lemma scale_pos : forall m d e, (0 < d)%N -> (0 <= e)%Z -> nq m / nq (d * 2 ^ Z.to_N e) == nq m / nq d / tw e.
Proof.
  intros m d e Hd He. rewrite nq_mul, tw_scale by lia. assert (P := nq_pos d Hd). assert (T := tw_pos e). field. split; lra.
Qed.
Lemma pow_pos : forall n, (0 < 2 ^ n)%N.
Proof. intros. assert (H := N.pow_nonzero 2 n ltac:(discriminate)). lia. Qed.

Lemma div_le : forall x y z, 0 < y -> x <= z * y <-> x / y <= z.
Proof.
  intros x y z H. assert (E : x == x / y * y) by (field; lra). set (w := x / y) in *. clearbody w. split; intros Q.
  - rewrite E in Q. nra.
  - rewrite E. nra.
Qed.
Lemma at_least_spec : forall m d k, (0 < d)%N -> at_least m d k = true <-> tw k <= nq m / nq d.
Proof.
  intros m d k Hd. unfold at_least. assert (P := nq_pos d Hd). assert (T := tw_pos k).
  assert (X : nq m == nq m / nq d * nq d) by (field; lra).
  destruct (0 <=? k)%Z eqn:E; rewrite N.leb_le.
  - split; intros H.
    + apply nq_le in H. rewrite nq_mul, tw_scale in H by lia. rewrite X in H. set (x := nq m / nq d) in *. clearbody x. nra.
    + apply nq_le_back. rewrite nq_mul, tw_scale by lia. rewrite X. set (x := nq m / nq d) in *. clearbody x. nra.
  - assert (I : tw (- k) * tw k == 1) by (rewrite <- tw_add; replace (- k + k)%Z with 0%Z by lia; reflexivity).
    split; intros H.
    + apply nq_le in H. rewrite nq_mul, tw_scale in H by lia. rewrite X in H. set (x := nq m / nq d) in *. clearbody x.
      assert (A : 1 <= x * tw (- k)) by nra. assert (T' := tw_pos (- k)). nra.
    + apply nq_le_back. rewrite nq_mul, tw_scale by lia. rewrite X. set (x := nq m / nq d) in *. clearbody x.
      assert (T' := tw_pos (- k)). assert (A : 1 <= x * tw (- k)) by nra. nra.
Qed.
Lemma leading_spec : forall m d, (0 < m)%N -> (0 < d)%N -> tw (leading m d) <= nq m / nq d /\ nq m / nq d < tw (leading m d + 1).
Proof.
  intros m d Hm Hd. unfold leading. assert (Lm := N.log2_spec m Hm). assert (Ld := N.log2_spec d Hd).
  set (a := N.log2 m) in *. set (b := N.log2 d) in *. assert (P := nq_pos d Hd). assert (X : nq m == nq m / nq d * nq d) by (field; lra).
  destruct Lm as [M1 M2], Ld as [D1 D2]. apply nq_le in M1. apply nq_lt in M2. apply nq_le in D1. apply nq_lt in D2.
  rewrite tw_N in *. rewrite !N2Z.inj_succ in *. rewrite <- !Z.add_1_r in *. rewrite tw_add in M2, D2. change (tw 1) with (2 # 1) in *.
  assert (S : forall z : Z, tw (Z.of_N a + z) == tw (Z.of_N a - Z.of_N b + z) * tw (Z.of_N b)) by (intros z; rewrite <- tw_add; replace (Z.of_N a - Z.of_N b + z + Z.of_N b)%Z with (Z.of_N a + z)%Z by lia; reflexivity).
  assert (S0 := S 0%Z). rewrite !Z.add_0_r in S0.
  set (k := (Z.of_N a - Z.of_N b)%Z) in *.
  assert (TB := tw_pos (Z.of_N b)). assert (TK := tw_pos k).
  destruct (at_least m d k) eqn:E.
  - apply at_least_spec in E; [|exact Hd]. split; [exact E|]. rewrite tw_add. change (tw 1) with (2 # 1).
    rewrite X in M2. set (x := nq m / nq d) in *. clearbody x. nra.
  - assert (N : ~ tw k <= nq m / nq d) by (rewrite <- at_least_spec by exact Hd; congruence). apply Qnot_le_lt in N.
    replace (k - 1 + 1)%Z with k by lia. split; [|exact N].
    assert (K : tw k == (2 # 1) * tw (k - 1)). { replace k with (k - 1 + 1)%Z at 1 by lia. rewrite tw_add. change (tw 1) with (2 # 1). ring. }
    rewrite X in M1. set (x := nq m / nq d) in *. clearbody x. nra.
Qed.
Lemma nearest_eq : forall m d, (0 < m)%N -> (0 < d)%N -> exists a b, (0 < b)%N /\ nq a / nq b == nq m / nq d / tw (snd (nearest m d)) /\
  fst (nearest m d) = round_div a b /\ snd (nearest m d) = Z.max (leading m d - 52) (-1074).
Proof.
  intros m d Hm Hd. unfold nearest. set (e := Z.max (leading m d - 52) (-1074)). cbn [fst snd]. destruct (e <? 0)%Z eqn:E.
  - exists (m * 2 ^ Z.to_N (- e))%N, d. repeat split; [exact Hd|]. apply scale_neg; [exact Hd|lia].
  - exists m, (d * 2 ^ Z.to_N e)%N. repeat split; [|apply scale_pos; [exact Hd|lia]]. assert (H := pow_pos (Z.to_N e)). nia.
Qed.

Definition size (v : double) : Q := nq (r_q v) * tw (r_e v).
Lemma fixed_eq : forall p v, exists a b, (0 < b)%N /\ nq a / nq b == size v * tn p /\ fixed p v = round_div a b.
Proof.
  intros p v. unfold fixed, size. destruct (r_e v <? 0)%Z eqn:E.
  - exists (r_q v * 10 ^ p)%N, (2 ^ Z.to_N (- r_e v))%N. split; [apply pow_pos|]. split; [|reflexivity].
    rewrite nq_mul, tn_N, tw_scale, tw_opp by lia. assert (T := tw_pos (r_e v)). field. lra.
  - exists (r_q v * 2 ^ Z.to_N (r_e v) * 10 ^ p)%N, 1%N. split; [reflexivity|]. split.
    + rewrite !nq_mul, tn_N, tw_scale by lia. change (nq 1) with 1. field.
    + symmetry. apply round_div_unique; [reflexivity|]. change (nq 1) with 1.
      set (y := nq (r_q v * 2 ^ Z.to_N (r_e v) * 10 ^ p)). assert (Z : y / 1 - y == 0) by field. rewrite Z. reflexivity.
Qed.
Lemma fixed_half : forall p v, - (1 # 2) <= nq (fixed p v) - size v * tn p <= 1 # 2.
Proof. intros p v. destruct (fixed_eq p v) as (a & b & Hb & E & F). rewrite F, <- E. apply round_div_half. exact Hb. Qed.
Lemma fixed_unique : forall p v m, Qabs (size v * tn p - nq m) < 1 # 2 -> fixed p v = m.
Proof. intros p v m H. destruct (fixed_eq p v) as (a & b & Hb & E & F). rewrite F. apply round_div_unique; [exact Hb|]. rewrite E. exact H. Qed.
Lemma fixed_neg : forall p n1 n2 q e, fixed p {| r_neg := n1; r_q := q; r_e := e |} = fixed p {| r_neg := n2; r_q := q; r_e := e |}.
Proof. reflexivity. Qed.

Lemma ten_pos : forall p, (0 < 10 ^ p)%N.
Proof. intros. assert (H := N.pow_nonzero 10 p ltac:(discriminate)). lia. Qed.
Lemma big_eq : (10 ^ 307 <= 2 ^ 1022)%N.
Proof. vm_compute. discriminate. Qed.
(** a number of up to 52 bits of digits and up to 307 places *)
Lemma stod_back : forall neg m p, (m < 2 ^ 52)%N -> (p <= 307)%N ->
  exists v, stod neg m p = Ok v /\ r_neg v = neg /\ fixed p v = m /\ binary64 v.
Proof.
  intros neg m p Hm Hp. unfold stod. destruct (N.eqb_spec m 0) as [->|Hz].
  { exists {| r_neg := neg; r_q := 0; r_e := -1074 |}. split; [reflexivity|]. split; [reflexivity|]. split.
    - apply fixed_unique. unfold size. cbn [r_q r_e]. change (nq 0) with 0. assert (Z : 0 * tw (-1074) * tn p - 0 == 0) by ring. rewrite Z. reflexivity.
    - split; cbn; lia. }
  assert (Hd := ten_pos p). destruct (nearest_eq m (10 ^ p) ltac:(lia) Hd) as (a & b & Hb & E & F & G).
  destruct (leading_spec m (10 ^ p) ltac:(lia) Hd) as [L1 L2].
  destruct (nearest m (10 ^ p)) as [q e] eqn:N. cbn [fst snd] in *. set (E0 := leading m (10 ^ p)) in *. clearbody E0. clear N.
  assert (PD : 0 < nq (10 ^ p)) by (apply nq_pos; exact Hd).
  assert (X : nq m == nq m / nq (10 ^ p) * nq (10 ^ p)) by (field; lra).
  assert (M52 : nq m < tw 52). { apply nq_lt in Hm. rewrite tw_N in Hm. exact Hm. }
  assert (M1 : 1 <= nq m) by (apply (nq_le 1); lia).
  assert (D1 : 1 <= nq (10 ^ p)) by (apply (nq_le 1); lia).
  assert (Low : (-1022 <= E0)%Z).
  { assert (B : nq (10 ^ p) <= tw 1022).
    { apply Qle_trans with (nq (10 ^ 307)); [apply nq_le, N.pow_le_mono_r; [discriminate|exact Hp]|].
      rewrite <- (tw_N 1022). apply nq_le, big_eq. }
    assert (T : tw (-1022) * tw 1022 == 1) by (rewrite <- tw_add; reflexivity).
    assert (C : tw (-1022) < tw (E0 + 1)).
    { apply Qle_lt_trans with (nq m / nq (10 ^ p)); [|exact L2]. assert (Y := tw_pos (-1022)).
      set (x := nq m / nq (10 ^ p)) in *. clearbody x. set (y := nq (10 ^ p)) in *. clearbody y.
      set (t := tw 1022) in *. clearbody t. set (u := tw (-1022)) in *. clearbody u. clear - X M1 D1 B T Y.
      assert (u * y <= 1) by nra. nra. }
    apply tw_lt_back in C. lia. }
  assert (High : (E0 <= 51)%Z).
  { assert (C : tw E0 < tw 52).
    { apply Qle_lt_trans with (nq m / nq (10 ^ p)); [exact L1|]. set (x := nq m / nq (10 ^ p)) in *. clearbody x.
      assert (0 <= x) by (assert (Y := tw_pos E0); lra). nra. }
    apply tw_lt_back in C. lia. }
  replace (Z.max (E0 - 52) (-1074)) with (E0 - 52)%Z in G by lia. subst e.
  replace (overflows q (E0 - 52)) with false by (unfold overflows; replace (0 <=? E0 - 52)%Z with false by lia; reflexivity).
  replace (E0 <? -1022)%Z with false by lia. cbn [andb].
  eexists. split; [reflexivity|]. split; [reflexivity|].
  assert (R := round_div_half a b Hb). rewrite <- F, E in R.
  assert (TE : tw E0 == tw (E0 - 52) * tw 52) by (rewrite <- tw_add; replace (E0 - 52 + 52)%Z with E0 by lia; reflexivity).
  assert (TE1 : tw (E0 + 1) == tw (E0 - 52) * tw 53) by (rewrite <- tw_add; replace (E0 - 52 + 53)%Z with (E0 + 1)%Z by lia; reflexivity).
  assert (U := tw_pos (E0 - 52)).
  assert (W : nq m / nq (10 ^ p) == nq m / nq (10 ^ p) / tw (E0 - 52) * tw (E0 - 52)) by (field; split; lra).
  rewrite tn_N in *.
  split.
  - apply fixed_unique. unfold size. cbn [r_q r_e].
    set (x := nq m / tn p) in *. clearbody x. set (y := x / tw (E0 - 52)) in *. clearbody y. set (t := tw (E0 - 52)) in *. clearbody t.
    set (D := tn p) in *. clearbody D. clear - X M52 TE L1 R U W PD.
    (* t * D < 1: from t * 2^52 <= x and x * D = m < 2^52 *)
    assert (Q : t * D < 1).
    { change (tw 52) with (4503599627370496 # 1) in *. nra. }
    assert (V : nq q * t * D - nq m == (nq q - y) * (t * D)) by (rewrite X, W; ring).
    rewrite V. set (g := t * D) in *. assert (0 < g) by (unfold g; nra). clearbody g.
    apply Qabs_case; intros; nra.
  - split; cbn [r_q r_e]; [|lia].
    assert (Y : nq m / tn p / tw (E0 - 52) < tw 53).
    { set (x := nq m / tn p) in *. clearbody x. set (y := x / tw (E0 - 52)) in *. clearbody y. set (t := tw (E0 - 52)) in *. clearbody t. nra. }
    set (y := nq m / tn p / tw (E0 - 52)) in *. clearbody y.
    assert (Z : nq q < nq (2 ^ 53 + 1)). { rewrite nq_add, tw_N. change (nq 1) with 1. change (Z.of_N 53) with 53%Z. lra. }
    apply nq_lt_back in Z. lia.
Qed.

(** what stod gives *)
Lemma overflows_spec : forall q e, overflows q e = true <-> (0 <= e)%Z /\ tw 1024 <= nq q * tw e.
Proof.
  intros q e. unfold overflows. destruct (0 <=? e)%Z eqn:E.
  - rewrite N.leb_le. split.
    + intros H. split; [lia|]. apply nq_le in H. rewrite nq_mul, tw_scale, tw_N in H by lia. exact H.
    + intros [_ H]. apply nq_le_back. rewrite nq_mul, tw_scale, tw_N by lia. exact H.
  - split; [discriminate|]. intros [H _]. lia.
Qed.
Lemma tw52 : tw 52 == nq (2 ^ 52).
Proof. symmetry. apply (tw_N 52). Qed.
Lemma tw53 : tw 53 == nq (2 ^ 53).
Proof. symmetry. apply (tw_N 53). Qed.
Lemma round_le : forall a b k, (0 < b)%N -> nq a / nq b < nq k -> (round_div a b <= k)%N.
Proof.
  intros a b k Hb H. assert (R := round_div_half a b Hb). assert (Z : nq (round_div a b) < nq (k + 1)).
  { rewrite nq_add. change (nq 1) with 1. lra. }
  apply nq_lt_back in Z. lia.
Qed.
Lemma round_ge : forall a b k, (0 < b)%N -> nq k <= nq a / nq b -> (k <= round_div a b)%N.
Proof.
  intros a b k Hb H. assert (R := round_div_half a b Hb). assert (Z : nq k < nq (round_div a b + 1)).
  { rewrite nq_add. change (nq 1) with 1. lra. }
  apply nq_lt_back in Z. lia.
Qed.
Lemma nearest_bits : forall m d q e, (0 < m)%N -> (0 < d)%N -> nearest m d = (q, e) -> (q <= 2 ^ 53)%N /\ (-1074 <= e)%Z /\
  (e = -1074 \/ (e = leading m d - 52 /\ (2 ^ 52 <= q)%N))%Z.
Proof.
  intros m d q e Hm Hd N. destruct (nearest_eq m d Hm Hd) as (a & b & Hb & E & F & G). rewrite N in *. cbn [fst snd] in *.
  destruct (leading_spec m d Hm Hd) as [L1 L2]. set (E0 := leading m d) in *. clearbody E0.
  set (x := nq m / nq d) in *. clearbody x. assert (U := tw_pos e).
  assert (W : x == x / tw e * tw e) by (field; lra). rewrite F. rewrite <- E in W. set (y := nq a / nq b) in *.
  repeat split.
  - apply round_le; [exact Hb|]. fold y. clearbody y. rewrite <- tw53.
    assert (T : tw (E0 + 1) <= tw e * tw 53) by (rewrite <- tw_add; apply tw_le; lia).
    set (t := tw e) in *. clearbody t. nra.
  - lia.
  - destruct (Z.eq_dec e (-1074)) as [->|D]; [left; reflexivity|]. right. split; [lia|].
    apply round_ge; [exact Hb|]. fold y. clearbody y. rewrite <- tw52.
    assert (T : tw E0 == tw e * tw 52) by (rewrite <- tw_add; replace (e + 52)%Z with E0 by lia; reflexivity).
    set (t := tw e) in *. clearbody t. nra.
Qed.
Lemma tw_multiple : forall e e', (e <= e')%Z -> tw e' == inject_Z (2 ^ (e' - e)) * tw e.
Proof.
  intros e e' H. rewrite Zpower_Qpower by lia. change (inject_Z 2 ^ (e' - e)) with (tw (e' - e)). rewrite <- tw_add.
  replace (e' - e + e)%Z with e' by lia. reflexivity.
Qed.
Lemma qabs_scale : forall x t, 0 < t -> Qabs (x * t) == Qabs x * t.
Proof. intros x t H. rewrite Qabs_Qmult, (Qabs_pos t) by lra. reflexivity. Qed.
Lemma nearest_best : forall m d q e, (0 < m)%N -> (0 < d)%N -> nearest m d = (q, e) -> forall s q' e', (q' <= 2 ^ 53)%N -> (-1074 <= e')%Z ->
  Qabs (nq m / nq d - nq q * tw e) <= Qabs (nq m / nq d - with_sign s (nq q' * tw e')).
Proof.
  intros m d q e Hm Hd N s q' e' Hq' He'. destruct (nearest_eq m d Hm Hd) as (a & b & Hb & E & F & G). rewrite N in *. cbn [fst snd] in *.
  destruct (leading_spec m d Hm Hd) as [L1 _]. set (E0 := leading m d) in *. clearbody E0.
  set (x := nq m / nq d) in *. clearbody x. assert (U := tw_pos e).
  assert (W : x == x / tw e * tw e) by (field; lra). rewrite <- E in W.
  assert (B : forall k, Qabs (x - nq q * tw e) <= Qabs (x - inject_Z k * tw e)).
  { intros k. assert (B := round_div_best a b k Hb). rewrite <- F in B. set (y := nq a / nq b) in *. clearbody y.
    assert (A1 : x - nq q * tw e == (y - nq q) * tw e) by (rewrite W; ring). assert (A2 : x - inject_Z k * tw e == (y - inject_Z k) * tw e) by (rewrite W; ring).
    rewrite A1, A2, !qabs_scale by exact U. apply Qmult_le_compat_r; [exact B|lra]. }
  clear E F Hb. assert (Qn := nq_nonneg q'). assert (U' := tw_pos e').
  destruct s; cbn [with_sign].
  - apply Qle_trans with (Qabs (x - inject_Z 0 * tw e)); [apply B|]. change (inject_Z 0) with 0.
    assert (X0 : 0 < x) by (assert (Y := tw_pos E0); lra). assert (P : 0 <= nq q' * tw e') by nra.
    rewrite (Qabs_pos (x - 0 * tw e)) by lra. rewrite (Qabs_pos (x - - (nq q' * tw e'))) by lra. lra.
  - destruct (Z_le_gt_dec e e') as [H|H].
    + assert (M := tw_multiple e e' H).
      assert (A : x - nq q' * tw e' == x - inject_Z (Z.of_N q' * 2 ^ (e' - e)) * tw e) by (rewrite M, inject_Z_mult; unfold nq; ring).
      rewrite A. apply B.
    + (* smaller exponents: at most 2^52 units *)
      assert (He : (e = E0 - 52)%Z) by lia. clear G. subst e.
      assert (P : nq q' * tw e' <= inject_Z (2 ^ 52) * tw (E0 - 52)).
      { assert (Q : nq q' <= tw 53) by (rewrite tw53; apply nq_le; exact Hq').
        assert (T : tw 53 * tw e' <= inject_Z (2 ^ 52) * tw (E0 - 52)).
        { rewrite Zpower_Qpower by lia. change (inject_Z 2 ^ 52) with (tw 52). rewrite <- !tw_add. apply tw_le. lia. }
        nra. }
      assert (T : inject_Z (2 ^ 52) * tw (E0 - 52) == tw E0).
      { rewrite Zpower_Qpower by lia. change (inject_Z 2 ^ 52) with (tw 52). rewrite <- tw_add. replace (52 + (E0 - 52))%Z with E0 by lia. reflexivity. }
      apply Qle_trans with (Qabs (x - inject_Z (2 ^ 52) * tw (E0 - 52))); [apply B|].
      rewrite T in *. rewrite !Qabs_pos by lra. lra.
Qed.
Lemma with_sign_comp : forall s x y, x == y -> with_sign s x == with_sign s y.
Proof. intros [|] x y H; cbn; rewrite H; reflexivity. Qed.
Lemma with_sign_abs : forall s x y, Qabs (with_sign s x - with_sign s y) == Qabs (x - y).
Proof.
  intros [|] x y; cbn [with_sign]; [|reflexivity]. assert (E : - x - - y == - (x - y)) by ring. rewrite E. apply Qabs_opp.
Qed.
Lemma stod_nearest : forall neg m p v, stod neg m p = Ok v -> r_neg v = neg /\ binary64 v /\
  forall w, binary64 w -> Qabs (decimal neg m p - worth v) <= Qabs (decimal neg m p - worth w).
Proof.
  intros neg m p v H. unfold stod in H. destruct (N.eqb_spec m 0) as [->|Hz].
  { apply Ok_inj in H. subst v. split; [reflexivity|]. split; [split; cbn; lia|]. intros w _.
    assert (Z : decimal neg 0 p - worth {| r_neg := neg; r_q := 0; r_e := -1074 |} == 0).
    { unfold decimal, worth. cbn [r_neg r_q r_e]. destruct neg; cbn [with_sign]; change (inject_Z (Z.of_N 0)) with 0; assert (T := tn_pos p); unfold tn in T; field; lra. }
    rewrite Z. apply Qabs_nonneg. }
  destruct (nearest m (10 ^ p)) as [q e] eqn:N. destruct (overflows q e) eqn:O; [discriminate|].
  destruct ((leading m (10 ^ p) <? -1022)%Z && negb (exact m (10 ^ p) e))%bool; [discriminate|]. apply Ok_inj in H. subst v.
  assert (Hd := ten_pos p). destruct (nearest_bits m (10 ^ p) q e ltac:(lia) Hd N) as (B1 & B2 & B3).
  split; [reflexivity|]. split.
  - split; cbn [r_q r_e]; [exact B1|]. split; [exact B2|]. destruct B3 as [->|[B3 B4]]; [lia|].
    destruct (Z_le_gt_dec e 971) as [L|L]; [exact L|]. exfalso.
    assert (X : overflows q e = true); [|congruence]. apply overflows_spec. split; [lia|].
    apply nq_le in B4. rewrite <- tw52 in B4. assert (U := tw_pos e).
    assert (T : tw 1024 <= tw 52 * tw e) by (rewrite <- tw_add; apply tw_le; lia). nra.
  - intros w [W1 W2]. assert (Be := nearest_best m (10 ^ p) q e ltac:(lia) Hd N (xorb neg (r_neg w)) (r_q w) (r_e w) W1 ltac:(lia)).
    assert (D : decimal neg m p == with_sign neg (nq m / nq (10 ^ p))) by (unfold decimal; apply with_sign_comp; rewrite tn_N; reflexivity).
    rewrite D. unfold worth. cbn [r_neg r_q r_e].
    assert (V : with_sign (r_neg w) (inject_Z (Z.of_N (r_q w)) * (2 # 1) ^ r_e w) == with_sign neg (with_sign (xorb neg (r_neg w)) (nq (r_q w) * tw (r_e w)))).
    { unfold nq, tw. destruct neg, (r_neg w); cbn [xorb with_sign]; ring. }
    rewrite V, with_sign_abs. rewrite (with_sign_abs neg). exact Be.
Qed.

(** a double that is written with enough digits *)
Lemma stod_close : forall neg m p q e, (2 ^ 52 <= q < 2 ^ 53)%N -> (-1074 < e <= 971)%Z ->
  Qabs (nq m / nq (10 ^ p) / tw e - nq q) < 1 # 4 ->
  exists v, stod neg m p = Ok v /\ r_neg v = neg /\ size v == nq q * tw e.
Proof.
  intros neg m p q e Hq He C. assert (Hd := ten_pos p).
  assert (Q1 : tw 52 <= nq q) by (rewrite tw52; apply nq_le; lia).
  assert (Q2 : nq q <= tw 53 - 1). { rewrite tw53. assert (Z : nq (q + 1) <= nq (2 ^ 53)) by (apply nq_le; lia). rewrite nq_add in Z. change (nq 1) with 1 in Z. lra. }
  assert (U := tw_pos e).
  unfold stod. destruct (N.eqb_spec m 0) as [->|Hz].
  { exfalso. assert (Z : nq 0 / nq (10 ^ p) / tw e == 0). { change (nq 0) with 0. assert (P := nq_pos _ Hd). field. split; lra. }
    rewrite Z in C. change (tw 52) with (4503599627370496 # 1) in Q1. revert C. apply Qabs_case; intros; lra. }
  destruct (nearest_eq m (10 ^ p) ltac:(lia) Hd) as (a & b & Hb & E & F & G).
  destruct (leading_spec m (10 ^ p) ltac:(lia) Hd) as [L1 L2].
  destruct (nearest m (10 ^ p)) as [q1 e1] eqn:N. cbn [fst snd] in *. set (E0 := leading m (10 ^ p)) in *. clearbody E0. clear N.
  set (x := nq m / nq (10 ^ p)) in *. clearbody x.
  assert (W : x == x / tw e * tw e) by (field; lra). set (y := x / tw e) in *.
  assert (T53 : tw (e + 53) == tw e * tw 53) by apply tw_add. assert (T52 : tw (e + 52) == tw e * tw 52) by apply tw_add.
  assert (T51 : tw (e + 51) == tw e * tw 51) by apply tw_add.
  assert (Y : nq q - (1 # 4) < y < nq q + (1 # 4)). { clearbody y. revert C. apply Qabs_case; intros; lra. }
  assert (Up : (E0 < e + 53)%Z).
  { apply tw_lt_back. apply Qle_lt_trans with x; [exact L1|]. rewrite T53. clearbody y. nra. }
  assert (Lo : (e + 51 <= E0)%Z).
  { assert (Z : tw (e + 51) < tw (E0 + 1)); [|apply tw_lt_back in Z; lia]. apply Qle_lt_trans with x; [|exact L2]. rewrite T51.
    assert (V : tw 51 <= y) by (change (tw 51) with (2251799813685248 # 1); change (tw 52) with (4503599627370496 # 1) in Q1; lra). clearbody y. nra. }
  assert (R : forall k, Qabs (x / tw e1 - nq k) < 1 # 2 -> q1 = k).
  { intros k H. rewrite F. apply round_div_unique; [exact Hb|]. rewrite E. exact H. }
  assert (S : nq q1 * tw e1 == nq q * tw e).
  { destruct (Z_le_gt_dec (e + 52) E0) as [H|H].
    - assert (E1 : e1 = e) by lia. rewrite E1 in *. rewrite (R q); [reflexivity|]. fold y. apply Qlt_le_trans with (1 # 4); [exact C|discriminate].
    - assert (E1 : (e1 = e - 1)%Z) by lia. assert (EE : (E0 + 1 = e + 52)%Z) by lia. rewrite EE in L2. rewrite T52 in L2.
      assert (V : y < tw 52) by (clearbody y; nra).
      assert (q = 2 ^ 52)%N. { assert (Z : nq q < nq (2 ^ 52 + 1)) by (rewrite nq_add, <- tw52; change (nq 1) with 1; lra). apply nq_lt_back in Z. lia. }
      subst q. assert (TE : tw e == (2 # 1) * tw e1). { replace e with (1 + e1)%Z by lia. rewrite tw_add. reflexivity. }
      assert (U1 := tw_pos e1).
      assert (Y2 : x / tw e1 == (2 # 1) * y). { unfold y. rewrite TE. field. lra. }
      rewrite (R (2 ^ 53)%N).
      + rewrite TE. change (nq (2 ^ 53)) with (9007199254740992 # 1). change (nq (2 ^ 52)) with (4503599627370496 # 1).
        rewrite Qmult_assoc. apply Qmult_comp; [reflexivity|reflexivity].
      + rewrite Y2. change (nq (2 ^ 53)) with (9007199254740992 # 1). change (nq (2 ^ 52)) with (4503599627370496 # 1) in *.
        clearbody y. apply Qabs_case; intros; lra. }
  replace (overflows q1 e1) with false.
  2: { symmetry. apply not_true_is_false. intros O. apply overflows_spec in O. destruct O as [_ O]. rewrite S in O.
       assert (T : tw e * tw 53 <= tw 1024) by (rewrite <- tw_add; apply tw_le; lia). nra. }
  replace (E0 <? -1022)%Z with false by lia. cbn [andb].
  eexists. split; [reflexivity|]. split; [reflexivity|]. exact S.
Qed.
Lemma enough_digits : forall p v, normal v -> (0 <= r_e v)%Z \/ (2 # 1) < tw (r_e v) * tn p ->
  exists v', stod (r_neg v) (fixed p v) p = Ok v' /\ r_neg v' = r_neg v /\ size v' == size v.
Proof.
  intros p v [Hq He] H. apply (stod_close (r_neg v) (fixed p v) p (r_q v) (r_e v) Hq He).
  assert (U := tw_pos (r_e v)). assert (T := tn_pos p). rewrite tn_N. destruct H as [H|H].
  - assert (Z : nq (fixed p v) / tn p / tw (r_e v) - nq (r_q v) == 0).
    { unfold fixed. replace (r_e v <? 0)%Z with false by lia. rewrite !nq_mul, tn_N, tw_scale by lia. field. split; lra. }
    rewrite Z. reflexivity.
  - assert (F := fixed_half p v). unfold size in F. set (t := tw (r_e v)) in *. clearbody t. set (D := tn p) in *. clearbody D.
    assert (X : nq (fixed p v) == nq (fixed p v) / D / t * (t * D)) by (field; split; lra).
    set (y := nq (fixed p v) / D / t) in *. clearbody y. rewrite X in F. set (q := nq (r_q v)) in *. clearbody q.
    assert (E : y * (t * D) - q * t * D == (y - q) * (t * D)) by ring. rewrite E in F. set (g := t * D) in *. clearbody g.
    apply Qabs_case; intros; nra.
Qed.

(** integers of more than 53 bits *)
Lemma odd_lost : forall neg n p, N.odd n = true -> (2 ^ 53 < n < 2 ^ 1023)%N -> exists v, stod neg (n * 10 ^ p) p = Ok v /\ r_neg v = neg /\ fixed p v <> (n * 10 ^ p)%N.
Proof.
  intros neg n p Ho Hn. assert (Hd := ten_pos p). assert (Hm : (0 < n * 10 ^ p)%N) by nia.
  unfold stod. replace (n * 10 ^ p =? 0)%N with false by lia.
  destruct (leading_spec (n * 10 ^ p) (10 ^ p) Hm Hd) as [L1 L2]. destruct (nearest_eq (n * 10 ^ p) (10 ^ p) Hm Hd) as (a & b & Hb & E & F & G).
  destruct (nearest (n * 10 ^ p) (10 ^ p)) as [q e] eqn:N. destruct (nearest_bits _ _ _ _ Hm Hd N) as (B1 & B2 & B3). cbn [fst snd] in *.
  assert (X : nq (n * 10 ^ p) / nq (10 ^ p) == nq n) by (rewrite nq_mul; assert (P := nq_pos _ Hd); field; lra).
  rewrite X in *. set (E0 := leading (n * 10 ^ p) (10 ^ p)) in *. clearbody E0.
  assert (Lo : (53 <= E0)%Z).
  { assert (Z : tw 53 < tw (E0 + 1)); [|apply tw_lt_back in Z; lia]. apply Qlt_trans with (nq n); [|exact L2]. rewrite tw53. apply nq_lt. lia. }
  assert (Hi : (E0 < 1023)%Z).
  { apply tw_lt_back. apply Qle_lt_trans with (nq n); [exact L1|]. rewrite <- (tw_N 1023). apply nq_lt. lia. }
  assert (Ee : (e = E0 - 52)%Z) by lia. clear G B3.
  replace (overflows q e) with false.
  2: { symmetry. apply not_true_is_false. intros O. apply overflows_spec in O. destruct O as [_ O].
       apply nq_le in B1. rewrite <- tw53 in B1. assert (T : tw 53 * tw e <= tw 1023) by (rewrite <- tw_add; apply tw_le; lia).
       assert (T' : tw 1024 == tw 1023 * (2 # 1)) by (rewrite <- (tw_add 1023 1); reflexivity).
       assert (U := tw_pos e). assert (U' := tw_pos 1023). nra. }
  replace (E0 <? -1022)%Z with false by lia. cbn [andb]. eexists. split; [reflexivity|]. split; [reflexivity|].
  unfold fixed. cbn [r_q r_e]. replace (e <? 0)%Z with false by lia. intros Eq.
  assert (Eq2 : (q * 2 ^ Z.to_N e = n)%N) by (apply N.mul_cancel_r with (10 ^ p)%N; [lia|exact Eq]).
  replace (Z.to_N e) with (N.succ (Z.to_N (e - 1))) in Eq2 by lia. rewrite N.pow_succ_r' in Eq2.
  assert (Ev : N.odd n = false); [|congruence]. rewrite <- Eq2, !N.odd_mul. cbn [N.odd]. rewrite andb_false_r. reflexivity.
Qed.

(** numbers out of range *)
Lemma tiny : forall neg m p, (0 < m)%N -> (m * 2 ^ 1075 < 10 ^ p)%N -> stod neg m p = Throw EStdRange.
Proof.
  intros neg m p Hm H. unfold stod. replace (m =? 0)%N with false by lia. assert (Hd := ten_pos p).
  destruct (leading_spec m (10 ^ p) Hm Hd) as [L1 L2]. destruct (nearest_eq m (10 ^ p) Hm Hd) as (a & b & Hb & E & F & G).
  destruct (nearest m (10 ^ p)) as [q e]. cbn [fst snd] in *. set (E0 := leading m (10 ^ p)) in *. clearbody E0.
  assert (Hi : (E0 < -1075)%Z).
  { apply tw_lt_back. apply Qle_lt_trans with (nq m / nq (10 ^ p)); [exact L1|]. apply nq_lt in H. rewrite nq_mul, tw_N in H.
    assert (P := nq_pos _ Hd). assert (X : nq m == nq m / nq (10 ^ p) * nq (10 ^ p)) by (field; lra).
    assert (T : tw (-1075) * tw 1075 == 1) by (rewrite <- tw_add; reflexivity). change (Z.of_N 1075) with 1075%Z in H.
    assert (U := tw_pos 1075). assert (U' := tw_pos (-1075)).
    set (x := nq m / nq (10 ^ p)) in *. clearbody x. set (D := nq (10 ^ p)) in *. clearbody D. set (t := tw 1075) in *. clearbody t.
    set (u := tw (-1075)) in *. clearbody u. rewrite X in H. assert (A : x * t < 1) by nra. nra. }
  replace (overflows q e) with false by (unfold overflows; replace (0 <=? e)%Z with false by lia; reflexivity).
  replace (E0 <? -1022)%Z with true by lia. replace (exact m (10 ^ p) e) with false; [reflexivity|].
  symmetry. unfold exact. replace e with (-1074)%Z by lia. change (-1074 <? 0)%Z with true. cbv iota. change (Z.to_N (- -1074)) with 1074%N.
  assert (P2 : (2 ^ 1075 = 2 * 2 ^ 1074)%N) by reflexivity. rewrite P2 in H. clear P2. assert (P3 := pow_pos 1074). set (t := (2 ^ 1074)%N) in *. clearbody t.
  rewrite N.mod_small by nia. apply N.eqb_neq. nia.
Qed.
Lemma huge : forall neg m p, (2 ^ 1024 * 10 ^ p <= m)%N -> stod neg m p = Throw EStdRange.
Proof.
  intros neg m p H. unfold stod. assert (Hd := ten_pos p). assert (P3 := pow_pos 1024).
  assert (Hm : (0 < m)%N) by (set (t := (2 ^ 1024)%N) in *; clearbody t; nia). replace (m =? 0)%N with false by lia.
  destruct (leading_spec m (10 ^ p) Hm Hd) as [L1 L2].
  destruct (nearest m (10 ^ p)) as [q e] eqn:N. destruct (nearest_bits _ _ _ _ Hm Hd N) as (B1 & B2 & B3).
  unfold nearest in N. apply pair_equal_spec in N. destruct N as [_ N].
  set (E0 := leading m (10 ^ p)) in *. clearbody E0.
  assert (Lo : (1024 <= E0)%Z).
  { assert (Z : tw 1024 < tw (E0 + 1)); [|apply tw_lt_back in Z; lia]. apply Qle_lt_trans with (nq m / nq (10 ^ p)); [|exact L2].
    apply nq_le in H. rewrite nq_mul, tw_N in H. assert (P := nq_pos _ Hd). assert (X : nq m == nq m / nq (10 ^ p) * nq (10 ^ p)) by (field; lra).
    change (Z.of_N 1024) with 1024%Z in H. set (x := nq m / nq (10 ^ p)) in *. clearbody x. set (D := nq (10 ^ p)) in *. clearbody D. nra. }
  destruct B3 as [B3|[B3 B4]]; [lia|]. replace (overflows q e) with true; [reflexivity|].
  symmetry. apply overflows_spec. split; [lia|]. apply nq_le in B4. rewrite <- tw52 in B4. assert (U := tw_pos e).
  assert (T : tw 1024 <= tw 52 * tw e) by (rewrite <- tw_add; apply tw_le; lia). nra.
Qed.

(** conversion to an integer *)
Lemma size_floor : forall v, let a := (if (r_e v <? 0)%Z then r_q v / 2 ^ Z.to_N (- r_e v) else r_q v * 2 ^ Z.to_N (r_e v))%N in
  nq a <= size v /\ size v < nq a + 1.
Proof.
  intros v. unfold size. assert (U := tw_pos (r_e v)). destruct (r_e v <? 0)%Z eqn:E; cbv zeta.
  - assert (P := pow_pos (Z.to_N (- r_e v))). assert (D := N.div_mod (r_q v) (2 ^ Z.to_N (- r_e v)) ltac:(lia)).
    assert (L := N.mod_lt (r_q v) (2 ^ Z.to_N (- r_e v)) ltac:(lia)).
    set (k := (r_q v / 2 ^ Z.to_N (- r_e v))%N) in *. set (r := (r_q v mod 2 ^ Z.to_N (- r_e v))%N) in *. clearbody k r.
    assert (X : nq (r_q v) == nq (2 ^ Z.to_N (- r_e v)) * nq k + nq r) by (rewrite D, nq_add, nq_mul; reflexivity).
    apply nq_lt in L. rewrite tw_scale in X, L by lia. assert (R := nq_nonneg r).
    assert (I : tw (- r_e v) * tw (r_e v) == 1) by (rewrite <- tw_add; replace (- r_e v + r_e v)%Z with 0%Z by lia; reflexivity).
    rewrite X. set (t := tw (r_e v)) in *. clearbody t. set (u := tw (- r_e v)) in *. clearbody u.
    assert (Y : (u * nq k + nq r) * t == nq k + nq r * t) by (transitivity (u * t * nq k + nq r * t); [ring|rewrite I; ring]). rewrite Y. split; nra.
  - rewrite nq_mul, tw_scale by lia. split; lra.
Qed.
Lemma at_most_spec : forall v, at_most_2_63 v = true <-> size v <= tw 63.
Proof.
  intros v. unfold at_most_2_63, size. assert (U := tw_pos (r_e v)). destruct (r_e v <? 0)%Z eqn:E; rewrite N.leb_le.
  - assert (I : tw (- r_e v) * tw (r_e v) == 1) by (rewrite <- tw_add; replace (- r_e v + r_e v)%Z with 0%Z by lia; reflexivity).
    assert (U' := tw_pos (- r_e v)). split; intros H.
    + apply nq_le in H. rewrite nq_mul, tw_N, tw_scale in H by lia. change (Z.of_N 63) with 63%Z in H.
      set (t := tw (r_e v)) in *. clearbody t. set (u := tw (- r_e v)) in *. clearbody u.
      assert (Y : tw 63 == tw 63 * u * t) by (transitivity (tw 63 * (u * t)); [rewrite I; ring|ring]). rewrite Y. nra.
    + apply nq_le_back. rewrite nq_mul, tw_N, tw_scale by lia. change (Z.of_N 63) with 63%Z.
      set (t := tw (r_e v)) in *. clearbody t. set (u := tw (- r_e v)) in *. clearbody u.
      assert (Y : nq (r_q v) == nq (r_q v) * t * u) by (transitivity (nq (r_q v) * (u * t)); [rewrite I; ring|ring]). rewrite Y. nra.
  - split; intros H.
    + apply nq_le in H. rewrite nq_mul, (tw_scale (r_e v)), tw_N in H by lia. exact H.
    + apply nq_le_back. rewrite nq_mul, (tw_scale (r_e v)), tw_N by lia. exact H.
Qed.

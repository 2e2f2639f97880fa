(** Proofs about checked arithmetic. *)
From Coq Require Import List NArith ZArith Bool Lia.
From Verif.Model Require Import Base SMap Arith Buffer.
From Verif.Spec Require Import Arith.
From Verif.Proof Require Import Tac SMap.
Import ListNotations.
Local Open Scope Z_scope.

Lemma pow_split : forall b, (1 <= b)%N -> 2 ^ Z.of_N b = 2 * 2 ^ (Z.of_N b - 1) /\ 0 < 2 ^ (Z.of_N b - 1).
Proof.
  intros b Hb. replace (Z.of_N b) with (1 + (Z.of_N b - 1)) at 1 by lia. rewrite Z.pow_add_r by lia.
  split; [reflexivity|apply Z.pow_pos_nonneg; lia].
Qed.

Definition rep (t : ity) (v : Z) : Prop := representable (sgn t) (bits t) v.

Lemma rep_minmax : forall t v, rep t v <-> tmin t <= v <= tmax t.
Proof. intros t v. unfold rep, representable, tmin, tmax. destruct (sgn t); lia. Qed.

Lemma wrap_id : forall t v, (1 <= bits t)%N -> rep t v -> wrap t v = v.
Proof.
  intros t v Hb Hr. destruct (pow_split (bits t) Hb) as [H1 H2]. unfold wrap, rep, representable in *.
  destruct (sgn t); cbn [andb].
  - destruct (Z.leb_spec 0 v) as [Hv|Hv].
    + rewrite Z.mod_small by lia. cif; lia.
    + replace (v mod 2 ^ Z.of_N (bits t)) with (v + 2 ^ Z.of_N (bits t)).
      * cif; lia.
      * symmetry. rewrite <- (Z.mod_add v 1) by lia. rewrite Z.mul_1_l. apply Z.mod_small. lia.
  - apply Z.mod_small. lia.
Qed.

Lemma wrap_rep : forall t v, (1 <= bits t)%N -> rep t (wrap t v).
Proof.
  intros t v Hb. destruct (pow_split (bits t) Hb) as [H1 H2]. unfold wrap, rep, representable.
  assert (H := Z.mod_pos_bound v (2 ^ Z.of_N (bits t)) ltac:(lia)).
  destruct (sgn t); cbn [andb]; [cif; lia|lia].
Qed.

Lemma pow_mono : forall a b, (a <= b)%N -> 2 ^ Z.of_N a <= 2 ^ Z.of_N b.
Proof. intros a b H. apply Z.pow_le_mono_r; lia. Qed.
Lemma pow_mono1 : forall a b, (1 <= a <= b)%N -> 2 ^ (Z.of_N a - 1) <= 2 ^ (Z.of_N b - 1).
Proof. intros a b H. apply Z.pow_le_mono_r; lia. Qed.

Lemma ity_eqb_eq : forall a b, ity_eqb a b = true -> a = b.
Proof.
  intros [s b] [s' b'] H. unfold ity_eqb in H; cbn [sgn bits] in H. apply andb_true_iff in H. destruct H as [H1 H2].
  apply eqb_prop in H1. apply N.eqb_eq in H2. subst. reflexivity.
Qed.

Lemma in_range_spec : forall rt vt v, (1 <= bits rt)%N -> (1 <= bits vt)%N -> rep vt v ->
  is_in_range rt vt v = true <-> rep rt v /\ ~ (sgn rt = true /\ sgn vt = false /\ v = 2 ^ (Z.of_N (bits rt) - 1) - 1).
Proof.
  intros rt vt v Hr Hv Hrep. assert (Pr := pow_split _ Hr). assert (Pv := pow_split _ Hv).
  unfold is_in_range, is_in_range_same.
  destruct (ity_eqb rt vt) eqn:He.
  { apply ity_eqb_eq in He. subst vt. rewrite eqb_reflx. split; [|reflexivity]. intros _. split; [exact Hrep|].
    intros (A & B & _). congruence. }
  unfold rep, representable, tmin, tmax in *.
  destruct (sgn rt) eqn:S1, (sgn vt) eqn:S2; cbn [Bool.eqb].
  - rewrite andb_true_iff, !Z.leb_le. split; [intros H; split; [lia|intros (_ & A & _); discriminate]|lia].
  - rewrite Z.gtb_lt. split; [intros H; split; [lia|lia]|]. intros [H1 H2].
    assert (v <> 2 ^ (Z.of_N (bits rt) - 1) - 1) by (intro; apply H2; auto). lia.
  - cif; [split; [discriminate|lia]|]. unfold ity_eqb. rewrite S1. cbn [sgn bits Bool.eqb andb].
    destruct (N.eqb_spec (bits rt) (bits vt)) as [E|E].
    + split; [|reflexivity]. intros _. split; [rewrite E; lia|intros (A & _); discriminate].
    + rewrite andb_true_iff, !Z.leb_le. split; [intros H; split; [lia|intros (A & _); discriminate]|lia].
  - rewrite andb_true_iff, !Z.leb_le. split; [intros H; split; [lia|intros (A & _); discriminate]|lia].
Qed.

Lemma common_bits : forall a b, (32 <= bits (common a b))%N.
Proof.
  intros a b. unfold common, promote.
  destruct (N.ltb_spec (bits a) 32), (N.ltb_spec (bits b) 32); cbn [sgn bits int32_t];
    repeat (destruct (_ : bool); cbn [sgn bits int32_t]); try lia.
  all: repeat cif; cbn [int32_t sgn bits] in *; lia.
Qed.

Lemma common_same : forall t, (32 <= bits t)%N -> common t t = t.
Proof.
  intros t H. unfold common, promote. replace (bits t <? 32)%N with false by lia. rewrite eqb_reflx.
  replace (bits t <? bits t)%N with false by lia. reflexivity.
Qed.

(** a nonnegative value of either operand type fits the common type *)
Lemma common_rep_l : forall a b v, (1 <= bits a)%N -> rep a v -> 0 <= v -> rep (common a b) v.
Proof.
  intros a b v Ha Hv H0.
  assert (Hp : rep (promote a) v /\ (1 <= bits (promote a))%N).
  { unfold promote. destruct (N.ltb_spec (bits a) 32); [|auto]. split; [|vm_compute; discriminate].
    assert (P := pow_split _ Ha). assert (Q := pow_mono (bits a) 31 ltac:(lia)).
    unfold rep, representable in *. cbn [int32_t sgn bits]. change (Z.of_N 32 - 1) with 31.
    destruct (sgn a); change (Z.of_N 31) with 31 in Q; lia. }
  clear Hv. destruct Hp as [Hp Hb].
  assert (Hb2 : (32 <= bits (promote a))%N /\ (32 <= bits (promote b))%N).
  { unfold promote. split; cif; cbn; lia. }
  unfold common. set (pa := promote a) in *. set (pb := promote b) in *. clearbody pa pb. clear a b Ha.
  assert (Pa := pow_split (bits pa) ltac:(lia)). assert (Pb := pow_split (bits pb) ltac:(lia)).
  unfold rep, representable in *.
  destruct (sgn pa) eqn:Sa, (sgn pb) eqn:Sb; cbn [Bool.eqb];
    repeat (cif; rewrite ?Sa, ?Sb); try congruence; try lia.
  all: try (assert (Q := pow_mono1 (bits pa) (bits pb) ltac:(lia)); lia).
  all: try (assert (Q := pow_mono (bits pa) (bits pb) ltac:(lia)); lia).
  all: assert (Q := pow_mono1 (bits pa + 1) (bits pb) ltac:(lia));
    replace (Z.of_N (bits pa + 1) - 1) with (Z.of_N (bits pa)) in Q by lia; lia.
Qed.

Lemma common_comm : forall a b, common a b = common b a.
Proof.
  intros a b. unfold common. set (pa := promote a). set (pb := promote b). clearbody pa pb. destruct pa as [sa ba], pb as [sb bb].
  destruct sa, sb; cbn [sgn bits Bool.eqb]; try reflexivity;
    (destruct (N.ltb_spec ba bb), (N.ltb_spec bb ba); try lia; try reflexivity; replace ba with bb by lia; reflexivity).
Qed.
Lemma common_rep_r : forall a b v, (1 <= bits b)%N -> rep b v -> 0 <= v -> rep (common a b) v.
Proof. intros. rewrite common_comm. apply common_rep_l; assumption. Qed.

Lemma cmp_neg : forall t v, (1 <= bits t)%N -> rep t v -> 0 <= v -> cmp_lt t int32_t v 0 = false.
Proof.
  intros t v Hb Hr H0. unfold cmp_lt.
  assert (H32 := common_bits t int32_t).
  rewrite wrap_id; [|lia|apply common_rep_l; assumption].
  rewrite wrap_id; [lia|lia|].
  apply common_rep_r; [vm_compute; discriminate| |lia]. vm_compute. split; [discriminate|reflexivity].
Qed.

(** unsigned common type, nonnegative operands: exact or refused *)
Lemma add_unsigned : forall t1 t2 a b, let ct := common t1 t2 in
  (1 <= bits t1)%N -> (1 <= bits t2)%N -> sgn ct = false -> rep t1 a -> rep t2 b -> 0 <= a -> 0 <= b ->
  safe_addition ct t1 t2 a b = if a + b <? 2 ^ Z.of_N (bits ct) then Ok (a + b) else Throw EStdRange.
Proof.
  intros t1 t2 a b ct H1 H2 Hs Ra Rb Ha Hb. unfold safe_addition. fold ct.
  assert (H32 := common_bits t1 t2). fold ct in H32.
  assert (Ca := common_rep_l t1 t2 a H1 Ra Ha). assert (Cb := common_rep_r t1 t2 b H2 Rb Hb). fold ct in Ca, Cb.
  rewrite (wrap_id ct a), (wrap_id ct b) by (try lia; assumption).
  unfold arith. rewrite Hs. cbn [rbind]. rewrite (wrap_id ct (wrap ct (a + b))) by (try lia; apply wrap_rep; lia).
  rewrite cmp_neg by assumption.
  assert (P := pow_split (bits ct) ltac:(lia)). unfold rep, representable in Ca, Cb. rewrite Hs in Ca, Cb.
  unfold cmp_lt. rewrite (common_comm ct t1).
  assert (Ra2 := common_rep_l t1 ct a H1 Ra Ha).
  rewrite (wrap_id _ a) by (try (assert (Q := common_bits t1 ct); lia); assumption).
  assert (Hw : wrap ct (a + b) = if a + b <? 2 ^ Z.of_N (bits ct) then a + b else a + b - 2 ^ Z.of_N (bits ct)).
  { unfold wrap. rewrite Hs. cbn [andb]. cif; [apply Z.mod_small; lia|].
    rewrite <- (Z.mod_add (a + b) (-1)) by lia. replace (a + b + -1 * 2 ^ Z.of_N (bits ct)) with (a + b - 2 ^ Z.of_N (bits ct)) by lia.
    apply Z.mod_small. lia. }
  rewrite (wrap_id (common t1 ct) (wrap ct (a + b))).
  - rewrite Hw. destruct (Z.ltb_spec (a + b) (2 ^ Z.of_N (bits ct))) as [L|L]; cif; try reflexivity; lia.
  - assert (Q := common_bits t1 ct). lia.
  - apply common_rep_r; [lia|apply wrap_rep; lia|].
    assert (Q := wrap_rep ct (a + b) ltac:(lia)). unfold rep, representable in Q. rewrite Hs in Q. lia.
Qed.

Lemma common_int32 : forall t, sgn t = true -> (32 <= bits t)%N -> common t int32_t = t.
Proof.
  intros [s b] Hs Hb. cbn [sgn bits] in *. subst s. unfold common, promote. cbn [bits int32_t].
  replace (b <? 32)%N with false by lia. change (32 <? 32)%N with false. cbn [sgn bits Bool.eqb int32_t].
  destruct (b <? 32)%N eqn:E; [lia|reflexivity].
Qed.

Lemma rep_zero : forall t, (1 <= bits t)%N -> rep t 0.
Proof. intros t H. assert (P := pow_split _ H). unfold rep, representable. destruct (sgn t); lia. Qed.

(** one signed type of at least 32 bits: full behaviour *)
Lemma add_signed : forall t a b, sgn t = true -> (32 <= bits t)%N -> rep t a -> rep t b ->
  safe_addition t t t a b =
    if (tmin t <=? a + b) && (a + b <=? tmax t) then
      (if (0 <=? a) && (b <? 0) then Throw EStdRange else Ok (a + b))
    else Undef.
Proof.
  intros t a b Hs Hb Ra Rb. unfold safe_addition. rewrite common_same by assumption.
  rewrite (wrap_id t a), (wrap_id t b) by (try lia; assumption). unfold arith. rewrite Hs.
  destruct ((tmin t <=? a + b) && (a + b <=? tmax t)) eqn:E; [|reflexivity].
  cbn [rbind]. assert (Rs : rep t (a + b)) by (apply rep_minmax; lia).
  rewrite (wrap_id t (a + b)) by (try lia; assumption).
  unfold cmp_lt. rewrite common_int32, common_same by assumption.
  rewrite (wrap_id t a), (wrap_id t b), (wrap_id t (a + b)), (wrap_id t 0) by (try lia; try assumption; apply rep_zero; lia).
  repeat cif; try reflexivity; lia.
Qed.

Lemma common_narrow : forall t, (bits t < 32)%N -> common t t = int32_t /\ common t int32_t = int32_t.
Proof. intros t H. unfold common, promote. replace (bits t <? 32)%N with true by lia. split; reflexivity. Qed.
Lemma add_narrow : forall t a b, sgn t = true -> (1 <= bits t < 32)%N -> representable true (bits t) a -> representable true (bits t) b ->
  (0 <= a /\ 0 <= b \/ a < 0 /\ b < 0) ->
  safe_addition t t t a b = if (- 2 ^ (Z.of_N (bits t) - 1) <=? a + b) && (a + b <=? 2 ^ (Z.of_N (bits t) - 1) - 1) then Ok (a + b) else Throw EStdRange.
Proof.
  intros t a b Hs Hb Ra Rb Hsame. destruct (common_narrow t ltac:(lia)) as [C1 C2].
  assert (P := pow_split (bits t) ltac:(lia)). destruct P as [P1 P2].
  assert (M := pow_mono1 (bits t) 31 ltac:(lia)). change (2 ^ (Z.of_N 31 - 1)) with 1073741824 in M.
  assert (W32 : forall v, -2147483648 <= v < 2147483648 -> wrap int32_t v = v).
  { intros v Hv. apply wrap_id; [vm_compute; discriminate|]. unfold rep, representable. cbn [sgn bits int32_t]. change (2 ^ (Z.of_N 32 - 1)) with 2147483648. lia. }
  unfold representable in Ra, Rb. unfold safe_addition. rewrite C1. unfold cmp_lt. rewrite C1, C2.
  rewrite !(W32 a), !(W32 b) by lia. change (wrap int32_t 0) with 0. unfold arith. cbn [sgn int32_t].
  change (tmin int32_t) with (-2147483648). change (tmax int32_t) with 2147483647.
  replace ((-2147483648 <=? a + b) && (a + b <=? 2147483647)) with true by lia. cbn [rbind].
  assert (Hw : wrap t (a + b) = if (- 2 ^ (Z.of_N (bits t) - 1) <=? a + b) && (a + b <=? 2 ^ (Z.of_N (bits t) - 1) - 1) then a + b
                                else if a + b <? 0 then a + b + 2 ^ Z.of_N (bits t) else a + b - 2 ^ Z.of_N (bits t)).
  { cif; [apply wrap_id; [lia|]; unfold rep, representable; rewrite Hs; lia|].
    unfold wrap. rewrite Hs. cbn [andb]. destruct (Z.ltb_spec (a + b) 0) as [L|L].
    - assert (E : (a + b) mod 2 ^ Z.of_N (bits t) = a + b + 2 ^ Z.of_N (bits t)).
      { symmetry. apply Z.mod_unique with (q := -1); [left; lia|lia]. }
      rewrite E. replace (2 ^ (Z.of_N (bits t) - 1) <=? a + b + 2 ^ Z.of_N (bits t)) with false by lia. reflexivity.
    - assert (E : (a + b) mod 2 ^ Z.of_N (bits t) = a + b) by (apply Z.mod_small; lia).
      rewrite E. replace (2 ^ (Z.of_N (bits t) - 1) <=? a + b) with true by lia. reflexivity. }
  rewrite Hw. destruct ((- 2 ^ (Z.of_N (bits t) - 1) <=? a + b) && (a + b <=? 2 ^ (Z.of_N (bits t) - 1) - 1)) eqn:E.
  - rewrite (W32 (a + b)) by lia. destruct Hsame as [[A B]|[A B]].
    + replace (a <? 0) with false by lia. replace (a + b <? a) with false by lia. reflexivity.
    + replace (a <? 0) with true by lia. replace (b <? 0) with true by lia. replace (a <? a + b) with false by lia. reflexivity.
  - destruct Hsame as [[A B]|[A B]].
    + replace (a + b <? 0) with false by lia. rewrite W32 by lia. replace (a <? 0) with false by lia.
      replace (a + b - 2 ^ Z.of_N (bits t) <? a) with true by lia. reflexivity.
    + replace (a + b <? 0) with true by lia. rewrite W32 by lia. replace (a <? 0) with true by lia. replace (b <? 0) with true by lia.
      replace (a <? a + b + 2 ^ Z.of_N (bits t)) with true by lia. reflexivity.
Qed.
Lemma mul_nonneg : forall t a b, (32 <= bits t)%N -> rep t a -> rep t b -> 0 <= a -> 0 <= b ->
  safe_multiply t t a b = if a * b <=? tmax t then Ok (a * b) else Throw EStdRange.
Proof.
  intros t a b Hb Ra Rb Ha Hb0. unfold safe_multiply.
  assert (P := pow_split (bits t) ltac:(lia)).
  assert (T : 0 <= tmax t) by (unfold tmax; destruct (sgn t); lia).
  destruct (Z.eqb_spec a 0) as [->|Na]; [cbn [orb]; cif; [reflexivity|lia]|].
  destruct (Z.eqb_spec b 0) as [->|Nb]; [rewrite Z.mul_0_r; cbn [orb]; cif; [reflexivity|lia]|]. cbn [orb].
  unfold safe_convert.
  assert (I : forall v, rep t v -> is_in_range t t v = true).
  { intros v Hv. unfold is_in_range, is_in_range_same. rewrite eqb_reflx. unfold ity_eqb. rewrite eqb_reflx, N.eqb_refl. reflexivity. }
  rewrite !I by assumption. cbn [rbind]. rewrite (wrap_id t a), (wrap_id t b) by (try lia; assumption).
  rewrite Z.quot_div_nonneg by lia.
  assert (D : tmax t / b < a <-> tmax t < a * b).
  { split; intro H.
    - assert (tmax t < b * (tmax t / b + 1)). { assert (Q := Z.mod_pos_bound (tmax t) b ltac:(lia)). rewrite (Z.div_mod (tmax t) b) at 1 by lia. lia. }
      nia.
    - apply Z.div_lt_upper_bound; lia. }
  destruct (Z.ltb_spec (tmax t / b) a) as [L|L].
  - cif; [lia|reflexivity].
  - cif; [|lia]. unfold promote. replace (bits t <? 32)%N with false by lia.
    assert (Rp : rep t (a * b)). { apply rep_minmax. split; [unfold tmin; destruct (sgn t); nia|lia]. }
    assert (Q : tmin t <= a * b) by (apply rep_minmax; assumption).
    unfold arith. destruct (sgn t) eqn:Hs.
    + replace ((tmin t <=? a * b) && (a * b <=? tmax t)) with true by lia. cbn [rbind]. rewrite wrap_id; [reflexivity|lia|assumption].
    + cbn [rbind]. assert (W : wrap t (a * b) = a * b) by (apply wrap_id; [lia|assumption]). rewrite !W. reflexivity.
Qed.

Lemma msb_fuel_spec : forall f v r, (N.size_nat v < f)%nat ->
  exists k, msb_fuel f v r = Ok (r + k)%N /\ (v < 2 ^ k)%N /\ (v <> 0 -> 2 ^ (k - 1) <= v)%N /\ (v = 0 -> k = 0)%N.
Proof.
  induction f as [|f IH]; intros v r Hf; [lia|]. cbn [msb_fuel].
  destruct (N.ltb_spec 0 v) as [L|L].
  - assert (Hs : (N.size_nat (v / 2) < f)%nat).
    { rewrite <- N.div2_div. destruct v as [|[p|p|]]; cbn in *; lia. }
    destruct (IH (v / 2)%N (r + 1)%N Hs) as (k & E & U & Lo & Z0). exists (k + 1)%N. split; [rewrite E; f_equal; lia|].
    rewrite N.pow_add_r. change (2 ^ 1)%N with 2%N. split; [lia|]. split; [|lia]. intros _.
    replace (k + 1 - 1)%N with k by lia. destruct (N.eq_dec (v / 2) 0) as [Ez|Nz].
    + rewrite (Z0 Ez). cbn. lia.
    + specialize (Lo Nz). assert (k <> 0)%N. { intro; subst k. cbn in U. lia. }
      replace k with (1 + (k - 1))%N by lia. rewrite N.pow_add_r. change (2 ^ 1)%N with 2%N. lia.
  - exists 0%N. rewrite N.add_0_r. replace v with 0%N by lia. cbn. split; [reflexivity|]. lia.
Qed.

Lemma value_le_same_spec : forall a b, all_bytes a -> all_bytes b -> length a = length b ->
  value_le_same a b = (big_endian a <=? big_endian b)%N.
Proof.
  assert (Hlt : forall s, all_bytes s -> (big_endian s < 256 ^ N.of_nat (length s))%N).
  { induction s as [|x s IH]; intros H; [cbn; lia|]. inversion H; subst. cbn [big_endian length].
    specialize (IH H3). unfold is_byte in H2. rewrite Nat2N.inj_succ, N.pow_succ_r'. nia. }
  induction a as [|x a IH]; intros [|y b] Ha Hb L; try discriminate; [reflexivity|].
  cbn [length] in L. injection L as L. inversion Ha; subst. inversion Hb; subst. cbn [value_le_same big_endian].
  rewrite L. destruct (N.eqb_spec x y) as [->|Ne]; cbn [negb].
  - rewrite (IH b) by assumption. destruct (N.leb_spec (big_endian a) (big_endian b)); lia.
  - assert (A1 := Hlt a H2). assert (B1 := Hlt b H4). rewrite L in A1.
    set (p := (256 ^ N.of_nat (length b))%N) in *. clearbody p.
    destruct (N.ltb_spec x y); symmetry; [apply N.leb_le|apply N.leb_gt]; nia.
Qed.

Lemma strncmp_eq_spec : forall t s, (forall x, In x t -> x <> 0%N) ->
  strncmp_eq s t = true <-> exists r, s = t ++ r.
Proof.
  induction t as [|y t IH]; intros s H; cbn [strncmp_eq].
  - split; [exists s; reflexivity|reflexivity].
  - assert (Hy : (y =? 0)%N = false) by (apply N.eqb_neq, H; left; reflexivity).
    destruct s as [|x s].
    + rewrite Hy. split; [discriminate|]. intros [r E]. discriminate.
    + rewrite andb_true_iff, N.eqb_eq, (IH s) by (intros; apply H; right; assumption). split.
      * intros [-> [r ->]]. exists r. reflexivity.
      * intros [r E]. injection E as -> ->. split; [reflexivity|exists r; reflexivity].
Qed.

(** bits *)
Lemma bit_set : forall z p, Z.land (Z.shiftr z p) 1 =? 0 = negb (Z.testbit z p).
Proof.
  intros z p. change 1 with (Z.ones 1) at 1. rewrite (Z.land_ones (Z.shiftr z p) 1) by lia. change (2 ^ 1) with 2.
  rewrite <- Z.bit0_mod. rewrite Z.shiftr_spec by lia. rewrite Z.add_0_l. destruct (Z.testbit z p); reflexivity.
Qed.

Lemma wrap_testbit : forall t v i, (1 <= bits t)%N -> 0 <= i < Z.of_N (bits t) -> Z.testbit (wrap t v) i = Z.testbit v i.
Proof.
  intros t v i Hb Hi. unfold wrap.
  cif.
  - rewrite <- (Z.mod_pow2_bits_low _ (Z.of_N (bits t))) by lia.
    replace (v mod 2 ^ Z.of_N (bits t) - 2 ^ Z.of_N (bits t)) with (v mod 2 ^ Z.of_N (bits t) + (-1) * 2 ^ Z.of_N (bits t)) by lia.
    rewrite Z.mod_add by (apply Z.pow_nonzero; lia). rewrite Zmod_mod. apply Z.mod_pow2_bits_low; lia.
  - apply Z.mod_pow2_bits_low; lia.
Qed.

Lemma shift1_testbit : forall p i, 0 <= p -> 0 <= i -> Z.testbit (Z.shiftl 1 p) i = (i =? p).
Proof.
  intros p i Hp Hi. rewrite Z.shiftl_1_l. destruct (Z.eqb_spec i p) as [->|Ne]; [apply Z.pow2_bits_true; lia|apply Z.pow2_bits_false; lia].
Qed.

Lemma toggle_testbit : forall t z p (v : bool) i, (1 <= bits t)%N -> 0 <= p < Z.of_N (bits t) -> 0 <= i < Z.of_N (bits t) ->
  Z.testbit (wrap t (if v then Z.lor z (wrap t (Z.shiftl 1 p)) else Z.land z (Z.lnot (wrap t (Z.shiftl 1 p))))) i
  = if i =? p then v else Z.testbit z i.
Proof.
  intros t z p v i Hb Hp Hi. rewrite wrap_testbit by assumption. destruct v.
  - rewrite Z.lor_spec, wrap_testbit, shift1_testbit by lia. destruct (i =? p); [apply orb_true_r|apply orb_false_r].
  - rewrite Z.land_spec, Z.lnot_spec, wrap_testbit, shift1_testbit by lia. destruct (i =? p); [apply andb_false_r|apply andb_true_r].
Qed.

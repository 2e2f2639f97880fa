(** Facts about character maps. *)
From Coq Require Import List NArith ZArith Bool Lia String.
From Coq Require Import List.
From Verif.Model Require Import Base Char Numbers SMap Object Token Parser Buffer Containers CharMap.
From Verif.Spec Require Import Arith Strings Grammar CharMap.
From Verif.Proof Require Import Tac Numbers Strings SMap Token ParserAny StreamObj Arith Writer Chain.
Import ListNotations.
Local Open Scope N_scope.

(** little-endian value, of reversed buffers *)
Fixpoint le (l : bytes) : N := match l with [] => 0 | b :: t => b + 256 * le t end.
Lemma be_snoc : forall l b, big_endian (l ++ [b]) = 256 * big_endian l + b.
Proof.
  induction l as [|x l IH]; intros b; cbn [app big_endian List.length]; [change (256 ^ N.of_nat 0) with 1; lia|].
  rewrite IH, app_length. cbn [List.length]. replace (N.of_nat (List.length l + 1)) with (N.succ (N.of_nat (List.length l))) by lia.
  rewrite N.pow_succ_r'. lia.
Qed.
Lemma le_rev : forall l, le (rev l) = big_endian l.
Proof.
  intros l. rewrite <- (rev_involutive l) at 2. induction (rev l) as [|b t IH]; [reflexivity|]. cbn [rev le]. rewrite be_snoc, IH. lia.
Qed.
Lemma be_bytes_S : forall n v, be_bytes (S n) v = be_bytes n (v / 256) ++ [v mod 256].
Proof. reflexivity. Qed.
Lemma all_bytes_rev : forall l, all_bytes l -> all_bytes (rev l).
Proof. intros l H. unfold all_bytes in *. apply Forall_rev. exact H. Qed.
Lemma be_bound : forall s, all_bytes s -> big_endian s < 256 ^ N.of_nat (List.length s).
Proof.
  induction s as [|x s IH]; intros H; [cbn; lia|]. apply Forall_cons_iff in H. destruct H as [Hx H]. specialize (IH H). unfold is_byte in Hx.
  cbn [big_endian List.length]. replace (N.of_nat (S (List.length s))) with (N.succ (N.of_nat (List.length s))) by lia. rewrite N.pow_succ_r'. nia.
Qed.

(** ** the difference of two bytes *)
Definition nb (b : bool) : N := if b then 1 else 0.
Lemma land_bit : forall x i, negb (N.land x (2 ^ i) =? 0) = N.testbit x i.
Proof.
  intros x i. destruct (N.testbit x i) eqn:E.
  - destruct (N.land x (2 ^ i) =? 0) eqn:F; [|reflexivity]. apply N.eqb_eq in F.
    assert (N.testbit (N.land x (2 ^ i)) i = false) by (rewrite F; apply N.bits_0). rewrite N.land_spec, E, N.pow2_bits_true in H. discriminate.
  - destruct (N.land x (2 ^ i) =? 0) eqn:F; [reflexivity|]. apply N.eqb_neq in F. exfalso. apply F. apply N.bits_inj. intros j.
    rewrite N.land_spec, N.bits_0, N.pow2_bits_eqb. destruct (i =? j) eqn:G; [|apply andb_false_r]. apply N.eqb_eq in G. subst j. rewrite E. reflexivity.
Qed.
Lemma low_bits : forall x i, x mod 2 ^ (i + 1) = x mod 2 ^ i + nb (N.testbit x i) * 2 ^ i.
Proof.
  intros x i. assert (P : 2 ^ i <> 0) by (apply N.pow_nonzero; lia).
  rewrite N.add_1_r, N.pow_succ_r', (N.mul_comm 2), N.mod_mul_r by lia. rewrite N.testbit_spec' in *.
  unfold nb. assert (T := N.testbit_spec' x i). destruct (N.testbit x i); cbn [N.b2n] in T; rewrite <- T; lia.
Qed.
Lemma lor_bit : forall r i, r < 2 ^ i -> N.lor r (2 ^ i) = r + 2 ^ i.
Proof.
  intros r i H.
  assert (E : N.land r (2 ^ i) = 0).
  { apply N.bits_inj. intros j. rewrite N.land_spec, N.bits_0, N.pow2_bits_eqb. destruct (i =? j) eqn:G; [|apply andb_false_r].
    apply N.eqb_eq in G. subst j. rewrite andb_true_r. destruct (N.eq_dec r 0) as [->|Hr]; [apply N.bits_0|].
    apply N.bits_above_log2. apply N.log2_lt_pow2; lia. }
  rewrite N.add_nocarry_lxor by exact E. symmetry. apply N.lxor_lor. exact E.
Qed.

Lemma byte_bits : forall k i bp src dst b0 b res,
  (k = O \/ bp = 2 ^ i) -> i + N.of_nat k <= 8 -> res < 2 ^ i -> res + dst mod 2 ^ i + nb b0 = src mod 2 ^ i + nb b * 2 ^ i ->
  let '(r, b') := byte_difference_bits k bp src dst b res in
  r < 2 ^ (i + N.of_nat k) /\ r + dst mod 2 ^ (i + N.of_nat k) + nb b0 = src mod 2 ^ (i + N.of_nat k) + nb b' * 2 ^ (i + N.of_nat k).
Proof.
  induction k as [|k IH]; intros i bp src dst b0 b res Hbp Hk Hres H.
  - cbn [byte_difference_bits]. rewrite N.add_0_r. auto.
  - destruct Hbp as [Hbp|Hbp]; [discriminate|]. cbn [byte_difference_bits]. cbv zeta. rewrite Hbp, !land_bit.
    assert (Hnext : k = O \/ (2 * 2 ^ i) mod 256 = 2 ^ (i + 1)).
    { destruct k as [|k]; [left; reflexivity|right]. rewrite N.add_1_r, N.pow_succ_r'. apply N.mod_small.
      rewrite <- N.pow_succ_r'. change 256 with (2 ^ 8). apply N.pow_lt_mono_r; lia. }
    assert (Hs := low_bits src i). assert (Hd := low_bits dst i).
    assert (P2 : 2 ^ (i + 1) = 2 * 2 ^ i) by (rewrite N.add_1_r, N.pow_succ_r'; reflexivity).
    replace (i + N.of_nat (S k)) with ((i + 1) + N.of_nat k) by lia.
    assert (G : forall r2 b2, r2 < 2 * 2 ^ i ->
      r2 + (dst mod 2 ^ i + nb (N.testbit dst i) * 2 ^ i) + nb b0 = (src mod 2 ^ i + nb (N.testbit src i) * 2 ^ i) + nb b2 * (2 * 2 ^ i) ->
      let '(r, b') := byte_difference_bits k ((2 * 2 ^ i) mod 256) src dst b2 r2 in
      r < 2 ^ (i + 1 + N.of_nat k) /\
      r + dst mod 2 ^ (i + 1 + N.of_nat k) + nb b0 = src mod 2 ^ (i + 1 + N.of_nat k) + nb b' * 2 ^ (i + 1 + N.of_nat k)).
    { intros r2 b2 G1 G2. rewrite <- Hs, <- Hd, <- P2 in G2. rewrite <- P2 in G1. apply (IH (i + 1)); [exact Hnext| |exact G1|exact G2].
      clear - Hk. lia. }
    assert (Hl := lor_bit res i Hres). clear Hs Hd P2 Hnext IH Hk Hbp.
    remember (byte_difference_bits k ((2 * 2 ^ i) mod 256) src dst) as rec eqn:Er. clear Er.
    generalize dependent (dst mod 2 ^ i). generalize dependent (src mod 2 ^ i). intros sm dm H G.
    destruct (N.testbit src i), (N.testbit dst i), b; cbn [negb andb xorb]; apply G; rewrite ?Hl;
      generalize dependent (2 ^ i); intros; cbn [nb] in *; lia.
Qed.
Lemma byte_difference_spec : forall x y b, x < 256 -> y < 256 ->
  let '(r, b') := byte_difference x y b in r < 256 /\ r + y + nb b = x + 256 * nb b'.
Proof.
  intros x y b Hx Hy. unfold byte_difference. assert (H := byte_bits 8 0 1 x y b b 0). cbn [N.of_nat] in H.
  destruct (byte_difference_bits 8 1 x y b 0) as [r b'].
  change (2 ^ (0 + N.of_nat 8)) with 256 in H. change (2 ^ 0) with 1 in H. rewrite !N.mod_1_r in H. rewrite !N.mod_small in H by assumption.
  destruct H as [H1 H2]; [right; reflexivity|vm_compute; discriminate|lia|lia|]. split; [exact H1|lia].
Qed.

(** ** the difference of two codes *)
Lemma p256 : forall i, i <= 4 -> 256 ^ i = 1 \/ 256 ^ i = 256 \/ 256 ^ i = 65536 \/ 256 ^ i = 16777216 \/ 256 ^ i = 4294967296.
Proof.
  intros i H. assert (E : i = 0 \/ i = 1 \/ i = 2 \/ i = 3 \/ i = 4) by lia. destruct E as [->|[->|[->|[->| ->]]]]; vm_compute; auto 10.
Qed.
Lemma difference_from_spec : forall src dst fuel i b acc,
  all_bytes src -> all_bytes dst -> List.length src = List.length dst -> (List.length src < fuel)%nat ->
  i + N.of_nat (List.length src) <= 4 -> acc < 256 ^ i -> le dst + nb b <= le src ->
  difference_from fuel i src dst b acc = Ok (acc + 256 ^ i * (le src - le dst - nb b)).
Proof.
  induction src as [|x src IH]; intros [|y dst] fuel i b acc Hs Hd L Hf Hi Ha Hle; cbn [List.length] in *; try lia.
  - destruct fuel as [|fuel]; [lia|]. cbn [difference_from le] in *. f_equal. nia.
  - destruct fuel as [|fuel]; [lia|]. cbn [difference_from hd tl]. apply Forall_cons_iff in Hs, Hd. destruct Hs as [Hx Hs], Hd as [Hy Hd]. unfold is_byte in *.
    assert (B := byte_difference_spec x y b Hx Hy). destruct (byte_difference x y b) as [r b'] eqn:Eb. destruct B as [B1 B2].
    replace (4 <=? i) with false by lia. cbn [le] in Hle |- *.
    assert (Hp : 256 ^ (i + 1) = 256 * 256 ^ i) by (rewrite N.add_1_r, N.pow_succ_r'; reflexivity).
    assert (Hlt : acc + r * 256 ^ i < 256 ^ (i + 1)) by (rewrite Hp; nia).
    assert (Hq : 256 ^ (i + 1) <= two32) by (unfold two32; destruct (p256 (i + 1)) as [E|[E|[E|[E|E]]]]; lia).
    rewrite N.mod_small by lia.
    assert (Hle2 : le dst + nb b' <= le src) by (destruct b, b'; cbn [nb] in *; lia).
    rewrite IH; [|assumption|assumption|lia|lia|lia|exact Hlt|exact Hle2].
    f_equal. rewrite Hp.
    assert (Hv : x + 256 * le src - (y + 256 * le dst) - nb b = r + 256 * (le src - le dst - nb b')) by (destruct b, b'; cbn [nb] in *; lia).
    rewrite Hv. lia.
Qed.
Lemma difference_spec : forall key lo, all_bytes key -> all_bytes lo -> List.length lo = List.length key -> (List.length key <= 4)%nat ->
  big_endian lo <= big_endian key -> difference key lo = Ok (big_endian key - big_endian lo).
Proof.
  intros key lo Hk Hl L L4 Hle. unfold difference. rewrite difference_from_spec.
  - rewrite !le_rev. cbn [nb]. change (256 ^ 0) with 1. f_equal. lia.
  - apply all_bytes_rev; assumption.
  - apply all_bytes_rev; assumption.
  - rewrite !rev_length. lia.
  - rewrite rev_length. lia.
  - rewrite rev_length. lia.
  - reflexivity.
  - rewrite !le_rev. cbn [nb]. lia.
Qed.

(** ** adding to a destination *)
Lemma increment_bytes_spec : forall data i c result,
  all_bytes data -> i + N.of_nat (List.length data) <= 4 -> le data + c < 256 ^ N.of_nat (List.length data) ->
  increment_bytes i data (c * 256 ^ i) result = Ok (be_bytes (List.length data) (le data + c) ++ result, 0).
Proof.
  induction data as [|item more IH]; intros i c result Hb Hi Hc; cbn [List.length le] in *.
  - change (256 ^ N.of_nat 0) with 1 in Hc. assert (c = 0) by lia. subst c. reflexivity.
  - apply Forall_cons_iff in Hb. destruct Hb as [Hx Hb]. unfold is_byte in Hx. cbn [increment_bytes]. replace (4 <=? i) with false by lia. cbv zeta.
    assert (Hp : 256 ^ (i + 1) = 256 * 256 ^ i) by (rewrite N.add_1_r, N.pow_succ_r'; reflexivity).
    assert (Hz : 256 ^ i <> 0) by (apply N.pow_nonzero; lia).
    rewrite N.div_mul by exact Hz.
    replace (N.of_nat (S (List.length more))) with (N.succ (N.of_nat (List.length more))) in Hc by lia. rewrite N.pow_succ_r' in Hc.
    assert (Hq : 256 ^ (i + 1) * 256 ^ N.of_nat (List.length more) <= two32).
    { rewrite <- N.pow_add_r. unfold two32. destruct (p256 (i + 1 + N.of_nat (List.length more))) as [E|[E|[E|[E|E]]]]; lia. }
    assert (Hd : c = 256 * (c / 256) + c mod 256) by (apply N.div_mod; lia).
    assert (Hm : c mod 256 < 256) by (apply N.mod_lt; lia).
    set (q := c / 256) in *. set (r := c mod 256) in *. clearbody q r.
    assert (Hless : (c * 256 ^ i + two32 - r * 256 ^ i) mod two32 = q * 256 ^ (i + 1)).
    { rewrite Hp. replace (c * 256 ^ i + two32 - r * 256 ^ i) with (q * (256 * 256 ^ i) + 1 * two32) by (subst c; unfold two32; nia).
      rewrite N.mod_add by (vm_compute; discriminate). apply N.mod_small. rewrite <- Hp. nia. }
    rewrite Hless. rewrite be_bytes_S.
    destruct (r <=? 255 - item) eqn:Ec.
    + assert (Hsum : le more + q < 256 ^ N.of_nat (List.length more)).
      { clear - Hc Hd Ec Hm Hx. generalize dependent (256 ^ N.of_nat (List.length more)). intros. lia. }
      rewrite IH; [|assumption|lia|exact Hsum]. rewrite <- app_assoc. cbn [app]. clear - Hd Hm Ec Hx.
      assert (E1 : (item + 256 * le more + c) / 256 = le more + q) by (subst c; symmetry; apply (N.div_unique _ 256 _ (item + r)); lia).
      assert (E2 : (item + 256 * le more + c) mod 256 = item + r) by (subst c; symmetry; apply (N.mod_unique _ 256 (le more + q)); lia).
      rewrite E1, E2. reflexivity.
    + assert (Hne : more <> []).
      { intros ->. cbn [List.length le] in *. change (256 ^ N.of_nat 0) with 1 in Hc. lia. }
      assert (Hn : (1 <= List.length more)%nat) by (destruct more; [congruence|cbn [List.length]; lia]).
      replace (4 <=? i + 1) with false by lia.
      assert (Hsum : le more + (q + 1) < 256 ^ N.of_nat (List.length more)).
      { clear - Hc Hd Ec Hm Hx. generalize dependent (256 ^ N.of_nat (List.length more)). intros. lia. }
      assert (Hcar : (q * 256 ^ (i + 1) + 256 ^ (i + 1)) mod two32 = (q + 1) * 256 ^ (i + 1)).
      { rewrite N.mod_small; [lia|]. clear - Hsum Hq Hz Hp. assert (0 < 256 ^ (i + 1)) by lia.
        generalize dependent (256 ^ N.of_nat (List.length more)). generalize dependent (256 ^ (i + 1)). intros. nia. }
      rewrite Hcar, IH; [|assumption|lia|exact Hsum]. rewrite <- app_assoc. cbn [app]. clear - Hd Hm Ec Hx.
      assert (E1 : (item + 256 * le more + c) / 256 = le more + (q + 1)) by (subst c; symmetry; apply (N.div_unique _ 256 _ (item + r - 256)); lia).
      assert (E2 : (item + 256 * le more + c) mod 256 = item + r - 256) by (subst c; symmetry; apply (N.mod_unique _ 256 (le more + (q + 1))); lia).
      assert (E3 : (item + r) mod 256 = item + r - 256) by (symmetry; apply (N.mod_unique _ 256 1); lia).
      rewrite E1, E2, E3. reflexivity.
Qed.
Lemma increment_spec : forall v c, all_bytes v -> (List.length v <= 4)%nat -> big_endian v + c < 256 ^ N.of_nat (List.length v) ->
  increment v c = Ok (be_bytes (List.length v) (big_endian v + c)).
Proof.
  intros v c Hv L Hc. unfold increment. assert (H := increment_bytes_spec (rev v) 0 c []).
  rewrite rev_length, le_rev, app_nil_r in H. change (256 ^ 0) with 1 in H. rewrite N.mul_1_r in H.
  rewrite H; [reflexivity|apply all_bytes_rev; exact Hv|lia|exact Hc].
Qed.
(** sums that leave the bytes of the destination *)
Lemma increment_bytes_over : forall data i c result,
  all_bytes data -> i + N.of_nat (List.length data) <= 3 -> (le data + c) * 256 ^ i < two32 ->
  increment_bytes i data (c * 256 ^ i) result =
    Ok (be_bytes (List.length data) (le data + c) ++ result, (le data + c) / 256 ^ N.of_nat (List.length data) * 256 ^ (i + N.of_nat (List.length data))).
Proof.
  induction data as [|item more IH]; intros i c result Hb Hi Hc; cbn [List.length le] in *.
  - cbn [increment_bytes]. change (256 ^ N.of_nat 0) with 1. rewrite N.div_1_r. change (N.of_nat 0) with 0. rewrite N.add_0_r. reflexivity.
  - apply Forall_cons_iff in Hb. destruct Hb as [Hx Hb]. unfold is_byte in Hx. cbn [increment_bytes]. replace (4 <=? i) with false by lia. cbv zeta.
    assert (Hp : 256 ^ (i + 1) = 256 * 256 ^ i) by (rewrite N.add_1_r, N.pow_succ_r'; reflexivity).
    assert (Hz : 256 ^ i <> 0) by (apply N.pow_nonzero; lia).
    rewrite N.div_mul by exact Hz.
    assert (Hd : c = 256 * (c / 256) + c mod 256) by (apply N.div_mod; lia).
    assert (Hm : c mod 256 < 256) by (apply N.mod_lt; lia).
    set (q := c / 256) in *. set (r := c mod 256) in *. clearbody q r.
    assert (Hless : (c * 256 ^ i + two32 - r * 256 ^ i) mod two32 = q * 256 ^ (i + 1)).
    { rewrite Hp. replace (c * 256 ^ i + two32 - r * 256 ^ i) with (q * (256 * 256 ^ i) + 1 * two32) by (subst c; unfold two32; nia).
      rewrite N.mod_add by (vm_compute; discriminate). apply N.mod_small. subst c. nia. }
    rewrite Hless. rewrite be_bytes_S.
    assert (Hpow : 256 ^ N.of_nat (S (List.length more)) = 256 * 256 ^ N.of_nat (List.length more)) by (rewrite Nnat.Nat2N.inj_succ, N.pow_succ_r'; reflexivity).
    assert (Hz2 : 256 ^ N.of_nat (List.length more) <> 0) by (apply N.pow_nonzero; lia).
    replace (i + N.of_nat (S (List.length more))) with (i + 1 + N.of_nat (List.length more)) by lia.
    rewrite Hpow, <- N.div_div by (assumption || discriminate).
    destruct (r <=? 255 - item) eqn:Ec.
    + assert (Hsum : (le more + q) * 256 ^ (i + 1) < two32) by (rewrite Hp; subst c; nia).
      rewrite IH; [|assumption|lia|exact Hsum]. rewrite <- app_assoc. cbn [app]. clear - Hd Hm Ec Hx.
      assert (E1 : (item + 256 * le more + c) / 256 = le more + q) by (subst c; symmetry; apply (N.div_unique _ 256 _ (item + r)); lia).
      assert (E2 : (item + 256 * le more + c) mod 256 = item + r) by (subst c; symmetry; apply (N.mod_unique _ 256 (le more + q)); lia).
      rewrite E1, E2. reflexivity.
    + replace (4 <=? i + 1) with false by lia.
      assert (Hsum : (le more + (q + 1)) * 256 ^ (i + 1) < two32).
      { assert (Hit : 256 <= item + r) by lia. assert (256 * (le more + (q + 1)) <= item + 256 * le more + c) by lia. rewrite Hp. clear - H Hc Hz. nia. }
      assert (Hcar : (q * 256 ^ (i + 1) + 256 ^ (i + 1)) mod two32 = (q + 1) * 256 ^ (i + 1)).
      { rewrite N.mod_small; [lia|]. clear - Hsum. nia. }
      rewrite Hcar, IH; [|assumption|lia|exact Hsum]. rewrite <- app_assoc. cbn [app]. clear - Hd Hm Ec Hx.
      assert (E1 : (item + 256 * le more + c) / 256 = le more + (q + 1)) by (subst c; symmetry; apply (N.div_unique _ 256 _ (item + r - 256)); lia).
      assert (E2 : (item + 256 * le more + c) mod 256 = item + r - 256) by (subst c; symmetry; apply (N.mod_unique _ 256 (le more + (q + 1))); lia).
      assert (E3 : (item + r) mod 256 = item + r - 256) by (symmetry; apply (N.mod_unique _ 256 1); lia).
      rewrite E1, E2, E3. reflexivity.
Qed.
Lemma increment_over : forall v c, all_bytes v -> (1 <= List.length v <= 3)%nat -> big_endian v + c < two32 ->
  let q := (big_endian v + c) / 256 ^ N.of_nat (List.length v) in 0 < q ->
  (q mod 3 <> 0 -> increment v c = Throw EConversion) /\ (q mod 12 = 0 -> increment v c = Ok (be_bytes (List.length v) (big_endian v + c))).
Proof.
  intros v c Hv L Hc q Hq. assert (H := increment_bytes_over (rev v) 0 c []).
  rewrite rev_length, le_rev, app_nil_r in H. change (256 ^ 0) with 1 in H. rewrite !N.mul_1_r in H.
  specialize (H (all_bytes_rev v Hv) ltac:(lia) Hc). fold q in H. rewrite N.add_0_l in H. unfold increment. rewrite H. cbn [rbind]. clear H. clearbody q.
  assert (Hl : (List.length v = 1 \/ List.length v = 2 \/ List.length v = 3)%nat) by lia.
  assert (Hp : exists k, 256 ^ N.of_nat (List.length v) = 256 * k /\ (k = 1 \/ k = 256 \/ k = 65536)).
  { destruct Hl as [->|[->| ->]]; [exists 1|exists 256|exists 65536]; (split; [reflexivity|auto]). }
  destruct Hp as (k & -> & Hk). clear Hl.
  replace (0 <? q * (256 * k)) with true by (destruct Hk as [->|[->| ->]]; lia).
  cbn [increment_rest]. change ((0 + 1) * 256) with 256. change ((0 + 1 + 1) * 256) with 512. change ((0 + 1 + 1 + 1) * 256) with 768. change ((0 + 1 + 1 + 1 + 1) * 256) with 1024.
  split; intros H3.
  - assert (E1 : (q * (256 * k)) mod 256 = 0) by (destruct Hk as [->|[->| ->]]; lia). rewrite E1. cbv iota zeta. change (255 <? 0) with false. change (0 =? 0) with true. cbv iota.
    destruct (255 <? (q * (256 * k)) mod 512) eqn:E2; [reflexivity|].
    assert (E4 : 255 <? (q * (256 * k)) mod 768 = true) by (clear E2; destruct Hk as [->|[->| ->]]; lia). rewrite E4. reflexivity.
  - assert (E1 : (q * (256 * k)) mod 256 = 0) by (destruct Hk as [->|[->| ->]]; lia).
    assert (E2 : (q * (256 * k)) mod 512 = 0) by (destruct Hk as [->|[->| ->]]; lia).
    assert (E4 : (q * (256 * k)) mod 768 = 0) by (destruct Hk as [->|[->| ->]]; lia).
    assert (E5 : (q * (256 * k)) mod 1024 = 0) by (destruct Hk as [->|[->| ->]]; lia).
    rewrite E1, E2, E4, E5. reflexivity.
Qed.
(** destinations longer than four bytes *)
Lemma increment_long : forall data i c result, 4 < i + N.of_nat (List.length data) -> i <= 4 -> increment_bytes i data c result = Undef.
Proof.
  induction data as [|item more IH]; intros i c result Hi Hi2; cbn [List.length] in Hi; [lia|]. cbn [increment_bytes].
  destruct (4 <=? i) eqn:E; [reflexivity|]. cbv zeta. cif; [apply IH; lia|]. cif; [reflexivity|]. apply IH; lia.
Qed.

(** ** lookup *)
Lemma value_le_spec : forall a b, all_bytes a -> all_bytes b -> List.length a = List.length b -> value_le a b = (big_endian a <=? big_endian b).
Proof. intros a b Ha Hb L. unfold value_le. rewrite L, PeanoNat.Nat.eqb_refl. cbn [negb]. apply value_le_same_spec; assumption. Qed.
Lemma between_spec : forall lo hi key, all_bytes lo -> all_bytes hi -> all_bytes key -> List.length lo = List.length hi ->
  value_le lo key && value_le key hi = true <-> code_between lo hi key.
Proof.
  intros lo hi key Hl Hh Hk L. unfold code_between. destruct (PeanoNat.Nat.eq_dec (List.length lo) (List.length key)) as [E|E].
  - rewrite !value_le_spec by (try assumption; congruence). rewrite andb_true_iff, !N.leb_le. split; [intros [? ?]|intros (_ & _ & ? & ?)]; repeat split; congruence || assumption.
  - split; [|intros (? & _); congruence]. unfold value_le. intros H. exfalso.
    destruct (Nat.eqb (List.length lo) (List.length key)) eqn:E1; [apply PeanoNat.Nat.eqb_eq in E1; congruence|].
    destruct (Nat.eqb (List.length key) (List.length hi)) eqn:E2; [apply PeanoNat.Nat.eqb_eq in E2; congruence|]. cbn [negb] in H.
    apply andb_true_iff in H. destruct H as [H1 H2]. apply PeanoNat.Nat.ltb_lt in H1, H2. lia.
Qed.
Lemma space_spec : forall m key, good_map m -> all_bytes key -> in_codespace m key = true <-> in_space m key.
Proof.
  intros m key [Hg _] Hk. unfold in_codespace, in_space. rewrite existsb_exists. rewrite Forall_forall in Hg.
  split; intros (r & Hin & H); exists r; (split; [exact Hin|]); destruct (Hg r Hin) as (H1 & H2 & H3).
  - rewrite andb_comm in H. apply between_spec in H; assumption.
  - rewrite andb_comm. apply between_spec; assumption.
Qed.
Lemma in_range_spec : forall r key, all_bytes (low r) -> all_bytes (high r) -> List.length (low r) = List.length (high r) -> all_bytes key ->
  in_range r key = true <-> code_between (low r) (high r) key.
Proof. intros r key H1 H2 H3 H4. unfold in_range. apply between_spec; assumption. Qed.
Lemma find_first : forall {A} (f : A -> bool) before x after, (forall y, In y before -> f y = false) -> f x = true -> List.find f (before ++ x :: after) = Some x.
Proof.
  induction before as [|y before IH]; intros x after Hb Hx; cbn [app List.find]; [rewrite Hx; reflexivity|].
  rewrite (Hb y (or_introl eq_refl)). apply IH; [|exact Hx]. intros z Hz. apply Hb. right. exact Hz.
Qed.
Lemma find_none : forall {A} (f : A -> bool) l, (forall y, In y l -> f y = false) -> List.find f l = None.
Proof. induction l as [|y l IH]; intros H; cbn [List.find]; [reflexivity|]. rewrite (H y (or_introl eq_refl)). apply IH. intros z Hz. apply H. right. exact Hz. Qed.
Lemma range_found : forall m key r, good_map m -> all_bytes key -> in_space m key -> range_of m key r ->
  mapped_value m key = range_value r key /\ in_range r key = true /\ all_bytes (low r) /\ all_bytes (high r).
Proof.
  intros m key r Hg Hk Hs (before & after & E & Hr & Hb). unfold mapped_value. rewrite (proj2 (space_spec m key Hg Hk) Hs). cbn [negb].
  destruct Hg as [_ Hg]. rewrite E in Hg |- *. apply Forall_app in Hg. destruct Hg as [Hg1 Hg2]. apply Forall_cons_iff in Hg2. destruct Hg2 as [(R1 & R2 & R3) _].
  assert (Hin : in_range r key = true) by (apply in_range_spec; assumption).
  rewrite find_first; [auto| |exact Hin]. intros r' Hr'. rewrite Forall_forall in Hg1, Hb. destruct (Hg1 r' Hr') as (B1 & B2 & B3).
  destruct (in_range r' key) eqn:Er; [|reflexivity]. exfalso. apply (Hb r' Hr'). apply in_range_spec in Er; assumption.
Qed.
Lemma no_range_found : forall m key, good_map m -> all_bytes key -> in_space m key -> no_range m key ->
  mapped_value m key = match List.find (fun c => buffer_equals (fst c) key) (chars m) with Some c => Ok (snd c) | None => Throw EGeneral end.
Proof.
  intros m key Hg Hk Hs Hn. unfold mapped_value. rewrite (proj2 (space_spec m key Hg Hk) Hs). cbn [negb]. destruct Hg as [_ Hg].
  unfold no_range in Hn. rewrite find_none; [reflexivity|]. intros r Hr. rewrite Forall_forall in Hg, Hn. destruct (Hg r Hr) as (B1 & B2 & B3).
  destruct (in_range r key) eqn:Er; [|reflexivity]. exfalso. apply (Hn r Hr). apply in_range_spec in Er; assumption.
Qed.
Lemma hex_strings_map : forall vs, hex_strings (map OHex vs) = Some vs.
Proof. induction vs as [|v vs IH]; [reflexivity|]. cbn [map hex_strings]. rewrite IH. reflexivity. Qed.

Lemma be_bytes_spec : forall n v, v < 256 ^ N.of_nat n -> all_bytes (be_bytes n v) /\ List.length (be_bytes n v) = n /\ big_endian (be_bytes n v) = v.
Proof.
  induction n as [|n IH]; intros v H.
  - change (256 ^ N.of_nat 0) with 1 in H. cbn. split; [constructor|]. split; [reflexivity|lia].
  - replace (N.of_nat (S n)) with (N.succ (N.of_nat n)) in H by lia. rewrite N.pow_succ_r' in H.
    assert (D : v / 256 < 256 ^ N.of_nat n) by (apply N.div_lt_upper_bound; lia).
    destruct (IH _ D) as (I1 & I2 & I3). rewrite be_bytes_S. split.
    + apply Forall_app. split; [exact I1|]. constructor; [|constructor]. unfold is_byte. clear. lia.
    + rewrite app_length, I2, be_snoc, I3. cbn [List.length]. clear. lia.
Qed.

(** ** reading the text *)
Lemma bytes_eqb_eq : forall a b, bytes_eqb a b = true <-> a = b.
Proof.
  induction a as [|x a IH]; intros [|y b]; cbn [bytes_eqb]; try (split; congruence).
  rewrite andb_true_iff, IH, N.eqb_eq. split; [intros [-> ->]; reflexivity|intros [= -> ->]; auto].
Qed.
Lemma cmap_kw : keywords_of cmap_dictionary.
Proof. intros w Hw. cbn [parser_keywords In] in Hw. repeat (destruct Hw as [<-|Hw]; [vm_compute; reflexivity|]). destruct Hw. Qed.
Lemma cmap_types : forall w, match cmap_dictionary w with
  | TyKw s => s = w | TyEol | TyEof | TyInt | TyName => False | _ => True end.
Proof.
  intros w. unfold cmap_dictionary. destruct (existsb (bytes_eqb w) cmap_keywords); [reflexivity|]. unfold parser_dictionary.
  repeat (match goal with |- context [if ?b then _ else _] => destruct b; [exact I|] end). exact I.
Qed.
Lemma kw_same : forall w s, ttype_eqb (cmap_dictionary w) (TyKw s) = true -> w = s.
Proof.
  intros w s H. assert (T := cmap_types w). destruct (cmap_dictionary w); cbn [ttype_eqb] in H; try discriminate. apply bytes_eqb_eq in H. congruence.
Qed.

Section Texts.
Variable rl : N -> N -> res Z.
Notation d := cmap_dictionary.
Notation rts := (read_token_skip cmap_dictionary).

Lemma word_read : forall w rest, word w -> token_ends rest -> rts (w ++ rest) = Ok ((d w, w), rest).
Proof.
  intros w rest [Hr Hf] He. apply tok_word; [| |exact He|].
  - apply forallb_forall. intros c Hc. rewrite Forall_forall in Hr. apply is_regular_spec. auto.
  - destruct w as [|c w]; [contradiction|]. destruct Hf as [H1 H2]. cbn [In] in H2. unfold is_numeric. lia.
  - assert (T := cmap_types w). intros E. rewrite E in T. exact T.
Qed.
Lemma kw_read : forall w rest, In w cmap_keywords -> token_ends rest -> rts (w ++ rest) = Ok ((TyKw w, w), rest).
Proof.
  intros w rest Hw He. assert (E : d w = TyKw w).
  { unfold cmap_dictionary. replace (existsb (bytes_eqb w) cmap_keywords) with true; [reflexivity|]. symmetry. apply existsb_exists.
    exists w. split; [exact Hw|]. apply bytes_eqb_eq. reflexivity. }
  rewrite <- E. apply tok_word; [| |exact He|rewrite E; discriminate].
  - clear - Hw. cbn [cmap_keywords In] in Hw. repeat (destruct Hw as [<-|Hw]; [vm_compute; reflexivity|]). destruct Hw.
  - clear - Hw. cbn [cmap_keywords In] in Hw. repeat (destruct Hw as [<-|Hw]; [vm_compute; reflexivity|]). destruct Hw.
Qed.
Lemma kw_expected : forall g w rest, gap g -> In w cmap_keywords -> token_ends rest -> expect_skip d (TyKw w) (g ++ w ++ rest) = Ok (w, rest).
Proof.
  intros g w rest Hg Hw He. unfold expect_skip. rewrite skip_gap by exact Hg. rewrite kw_read by assumption. cbn [rbind fst snd ttype_eqb].
  rewrite (proj2 (bytes_eqb_eq w w) eq_refl). reflexivity.
Qed.
Lemma hex_read : forall g t v rest, gap g -> hex_text t v -> read_hex_string (g ++ (60 :: t ++ [62]) ++ rest) = Ok (v, rest).
Proof.
  intros g t v rest Hg Ht. unfold read_hex_string, expect_skip. rewrite skip_gap by exact Hg. destruct (tok_hex d t v rest Ht) as (raw & E & Ed).
  cbn [app]. rewrite E. cbn [rbind fst snd ttype_eqb]. rewrite Ed. reflexivity.
Qed.
Lemma number_read : forall g ds n rest, gap g -> integer_text ds n -> token_ends rest -> rts (g ++ ds ++ rest) = Ok ((TyInt, ds), rest).
Proof. intros g ds n rest Hg (H1 & H2 & _) He. rewrite skip_gap by exact Hg. apply tok_nat; assumption. Qed.
Lemma number_value : forall ds n, integer_text ds n -> N.of_nat n < 2 ^ 63 -> stoll ds = Ok (Z.of_nat n).
Proof. intros ds n (H1 & H2 & H3) Hn. rewrite sign_signed by (try assumption; lia). f_equal. lia. Qed.

Lemma pairs_read : forall body l, pairs_text body l -> forall rest fuel, (List.length l <= fuel)%nat ->
  exists g, gap g /\ read_pairs fuel (Z.of_nat (List.length l)) (body ++ rest) = Ok (l, g ++ rest).
Proof.
  intros body l H. induction H as [g Hg|g1 t1 v1 g2 t2 v2 more l Hg1 Ht1 Hg2 Ht2 H IH]; intros rest fuel Hf.
  - exists g. split; [exact Hg|]. destruct fuel; reflexivity.
  - cbn [List.length] in Hf |- *. destruct fuel as [|fuel]; [lia|]. destruct (IH rest fuel ltac:(lia)) as (g & Hg & E). exists g. split; [exact Hg|].
    cbn [read_pairs]. replace (Z.of_nat (S (List.length l)) <=? 0)%Z with false by lia. rewrite <- !app_assoc. rewrite (hex_read g1 t1 v1) by assumption. cbn [rbind].
    rewrite (hex_read g2 t2 v2) by assumption. cbn [rbind]. replace (Z.of_nat (S (List.length l)) - 1)%Z with (Z.of_nat (List.length l)) by lia. rewrite E. reflexivity.
Qed.

Lemma look_hex : forall t v rest, hex_text t v -> look_ok d ((60 :: t ++ [62]) ++ rest).
Proof.
  intros t v rest Ht. destruct (tok_hex d t v rest Ht) as (raw & E & _). do 2 eexists. split; [cbn [app]; exact E|]. cbn [fst]. split; [discriminate|]. split; discriminate.
Qed.
Lemma look_kw : forall w rest, In w cmap_keywords -> token_ends rest -> look_ok d (w ++ rest).
Proof.
  intros w rest Hw He. do 2 eexists. split; [apply kw_read; assumption|]. cbn [fst]. split; [discriminate|]. split; discriminate.
Qed.
Lemma ranges_read : forall body l, ranges_text body l -> forall rest fuel, (List.length l <= fuel)%nat -> look_ok d rest ->
  (exists g, gap g /\ read_ranges rl fuel (Z.of_nat (List.length l)) (body ++ rest) = Ok (l, g ++ rest)) /\ look_ok d (body ++ rest).
Proof.
  intros body l H. induction H as [g Hg|g1 t1 v1 g2 t2 v2 g3 t3 o more l Hg1 Ht1 Hg2 Ht2 Hg3 Ht3 Ho H IH]; intros rest fuel Hf Hl.
  - split; [|apply look_gap; assumption]. exists g. split; [exact Hg|]. destruct fuel; reflexivity.
  - split; [|rewrite <- !app_assoc; apply look_gap; [assumption|]; eapply look_hex; eassumption].
    cbn [List.length] in Hf |- *. destruct fuel as [|fuel]; [lia|]. destruct (IH rest fuel ltac:(lia) Hl) as [(g & Hg & E) Hm]. exists g. split; [exact Hg|].
    cbn [read_ranges]. replace (Z.of_nat (S (List.length l)) <=? 0)%Z with false by lia. rewrite <- !app_assoc. rewrite (hex_read g1 t1 v1) by assumption. cbn [rbind].
    rewrite (hex_read g2 t2 v2) by assumption. cbn [rbind].
    assert (Ep : parse_direct d rl (g3 ++ t3 ++ more ++ rest) = Ok (o, more ++ rest)).
    { unfold parse_direct. rewrite rts_gap_obj by assumption. apply (proj1 (reads_text d cmap_kw rl)); [assumption|rewrite !app_length; lia|].
      split; [destruct Ho; cbn [self_delimited]; discriminate|exact Hm]. }
    rewrite Ep. cbn [rbind]. replace (Z.of_nat (S (List.length l)) - 1)%Z with (Z.of_nat (List.length l)) by lia. rewrite E. reflexivity.
Qed.

Lemma pair_section_read : forall kw kw2 ds g2 body l more, In kw cmap_keywords -> In kw2 cmap_keywords ->
  integer_text ds (List.length l) -> N.of_nat (List.length l) < 2 ^ 63 -> gap g2 -> pairs_text body l -> token_ends body -> body <> [] -> token_ends more ->
  pair_section kw kw2 ds (g2 ++ kw ++ body ++ kw2 ++ more) = Ok (l, more).
Proof.
  intros kw kw2 ds g2 body l more Hk1 Hk2 Hd Hn Hg Hb Hbe Hbn He. unfold pair_section.
  rewrite kw_expected; [|assumption|assumption|apply token_ends_app; [assumption|left; assumption]]. cbn [rbind].
  rewrite (number_value ds _ Hd Hn). cbn [rbind].
  destruct (pairs_read body l Hb (kw2 ++ more) (S (List.length (body ++ kw2 ++ more)))) as (g & Hg2 & E).
  { clear - Hb. rewrite app_length. assert (List.length l <= List.length body)%nat; [|lia]. induction Hb as [|g1 t1 v1 g2' t2 v2 more' l Hg1 Ht1 Hg2 Ht2 H IH]; cbn [List.length]; [lia|].
    rewrite !app_length. cbn [List.length]. lia. }
  rewrite E. cbn [rbind]. rewrite kw_expected by assumption. reflexivity.
Qed.
Lemma range_section_read : forall kw kw2 ds g2 body l more, In kw cmap_keywords -> In kw2 cmap_keywords ->
  integer_text ds (List.length l) -> N.of_nat (List.length l) < 2 ^ 63 -> gap g2 -> ranges_text body l -> token_ends body -> body <> [] -> token_ends more ->
  range_section rl kw kw2 ds (g2 ++ kw ++ body ++ kw2 ++ more) = Ok (l, more).
Proof.
  intros kw kw2 ds g2 body l more Hk1 Hk2 Hd Hn Hg Hb Hbe Hbn He. unfold range_section.
  rewrite kw_expected; [|assumption|assumption|apply token_ends_app; [assumption|left; assumption]]. cbn [rbind].
  rewrite (number_value ds _ Hd Hn). cbn [rbind].
  destruct (ranges_read body l Hb (kw2 ++ more) (S (List.length (body ++ kw2 ++ more)))) as [(g & Hg2 & E) _].
  { clear - Hb. rewrite app_length. assert (List.length l <= List.length body)%nat; [|lia]. induction Hb as [|g1 t1 v1 g2' t2 v2 g3 t3 o more' l Hg1 Ht1 Hg2 Ht2 Hg3 Ht3 Ho H IH]; cbn [List.length]; [lia|].
    rewrite !app_length. cbn [List.length]. lia. }
  { apply look_kw; assumption. }
  rewrite E. cbn [rbind]. rewrite kw_expected by assumption. reflexivity.
Qed.

(** the first token of a map can be read *)
Lemma plain_name : forall w, forallb (fun c => (c <? 256) && is_regular c && negb (c =? 35)) w = true -> name_text w w.
Proof.
  induction w as [|c w IH]; intros H; [constructor|]. cbn [forallb] in H. rewrite !andb_true_iff in H. destruct H as [[[H1 H2] H3] H4].
  apply nt_plain; [lia|apply is_regular_spec; exact H2|lia|auto].
Qed.
Lemma name_read : forall g kt n rest, gap g -> name_text kt n -> token_ends rest -> rts (g ++ (47 :: kt) ++ rest) = Ok ((TyName, n), rest).
Proof. intros g kt n rest Hg Hn He. rewrite skip_gap by exact Hg. cbn [app]. apply tok_name; assumption. Qed.
Lemma gap_head : forall g c rest, gap g -> In c [40; 41; 60; 62; 91; 93; 123; 125; 47; 37] -> token_ends (g ++ c :: rest).
Proof.
  intros g c rest Hg Hc. destruct g as [|x g]; [right; cbn in *; intuition|]. apply gap_token_ends; [exact Hg|discriminate].
Qed.
Lemma dict_head : forall dt m, object_text dt (ODict m) -> exists txt es, dt = [60; 60] ++ txt ++ [62; 62] /\ entries_text txt es /\ dict_content es m.
Proof. intros dt m H. inversion H; subst. eauto. Qed.

Ltac ends := first [assumption | apply gap_token_ends; assumption | apply gap_head; [assumption|cbn; tauto]].
Lemma first_read : forall txt m, cmap_text txt m -> exists tk r, rts txt = Ok (tk, r).
Proof.
  intros txt m H. destruct H as [g Hg|g w more m Hg Hw He Hm|g kt n more m Hg Hn Hd He Hm|g ds n g2 w more m Hg Hn Hg2 Hne Hw Hs He Hm|
    g ds g2 body l more cs rs ch Hg Hd Hn Hg2 Hne Hb Hbe Hbn He Hm|g ds g2 body l more cs rs ch Hg Hd Hn Hg2 Hne Hb Hbe Hbn He Hm|
    g ds g2 body l more cs rs ch Hg Hd Hn Hg2 Hne Hb Hbe Hbn He Hm|g g2 dt m' g3 more m r o z Hg Hg2 Ho Hg3 _ _ _ He Hm|
    g g2 kt n g3 more m Hg Hg2 Hn Hg3 Hne He Hm|g g2 ds n g3 more m Hg Hg2 Hne Hd Hn Hg3 Hne3 He Hm].
  - rewrite <- (app_nil_r g). rewrite skip_gap by exact Hg. do 2 eexists. reflexivity.
  - rewrite skip_gap by exact Hg. do 2 eexists. apply word_read; assumption.
  - do 2 eexists. apply (name_read g kt n more); assumption.
  - do 2 eexists. apply (number_read g ds n); ends.
  - unfold section_text. rewrite <- !app_assoc. do 2 eexists. eapply (number_read g ds); [assumption|eassumption|ends].
  - unfold section_text. rewrite <- !app_assoc. do 2 eexists. eapply (number_read g ds); [assumption|eassumption|ends].
  - unfold section_text. rewrite <- !app_assoc. do 2 eexists. eapply (number_read g ds); [assumption|eassumption|ends].
  - destruct (dict_head dt m' Ho) as (t & es & -> & _). do 2 eexists. apply (name_read g (str "CIDSystemInfo") (str "CIDSystemInfo")); [assumption|apply plain_name; reflexivity|].
    cbn [app]. ends.
  - do 2 eexists. apply (name_read g (str "CMapName") (str "CMapName")); [assumption|apply plain_name; reflexivity|]. cbn [app]. ends.
  - do 2 eexists. apply (name_read g (str "CMapType") (str "CMapType")); [assumption|apply plain_name; reflexivity|]. ends.
Qed.

Definition plus (a b : char_map) : char_map :=
  {| codespace := codespace a ++ codespace b; ranges := ranges a ++ ranges b; chars := chars a ++ chars b |}.
Lemma plus_end : forall m, plus m {| codespace := []; ranges := []; chars := [] |} = m.
Proof. intros [a b c]. unfold plus. cbn. rewrite !app_nil_r. reflexivity. Qed.

Lemma step : forall f m0 txt tk r tk2 r2 m' r', rts txt = Ok (tk, r) -> rts r = Ok (tk2, r2) -> fst tk <> TyEof -> cmap_round rl m0 tk (fst tk2) r = Ok (m', r') ->
  read_cmap_from rl (S f) m0 txt = read_cmap_from rl f m' r'.
Proof.
  intros f m0 txt tk r tk2 r2 m' r' H1 H2 Hne H3. cbn [read_cmap_from]. rewrite H1. cbn [rbind]. unfold peek_type_skip. rewrite H2. cbn [rbind fst].
  destruct (fst tk) eqn:E; try congruence; rewrite H3; reflexivity.
Qed.
Lemma def_expected : forall g rest, gap g -> token_ends rest -> expect_skip d (TyKw (str "def")) (g ++ str "def" ++ rest) = Ok (str "def", rest).
Proof. intros g rest Hg He. apply kw_expected; [exact Hg|vm_compute; tauto|exact He]. Qed.

Lemma no_section : forall w m0 tk s, ~ In w section_words -> fst tk = TyInt -> cmap_round rl m0 tk (d w) s = Ok (m0, s).
Proof.
  intros w m0 tk s Hw Ht. unfold cmap_round. rewrite Ht.
  assert (G : forall x, In x section_words -> ttype_eqb (d w) (TyKw x) = false).
  { intros x Hx. destruct (ttype_eqb (d w) (TyKw x)) eqn:E; [|reflexivity]. apply kw_same in E. congruence. }
  rewrite !G by (cbn [section_words In]; tauto). reflexivity.
Qed.
Lemma other_name : forall n m0 ahead s, ~ In n defined_names -> cmap_round rl m0 (TyName, n) ahead s = Ok (m0, s).
Proof.
  intros n m0 ahead s Hn. unfold cmap_round. cbn [fst snd].
  assert (G : forall x, In x defined_names -> bytes_eqb n x = false).
  { intros x Hx. destruct (bytes_eqb n x) eqn:E; [|reflexivity]. apply bytes_eqb_eq in E. congruence. }
  rewrite !G by (cbn [defined_names In]; tauto). reflexivity.
Qed.
Lemma a_word : forall w m0 ahead s, cmap_round rl m0 (d w, w) ahead s = Ok (m0, s) /\ d w <> TyEof.
Proof. intros w m0 ahead s. assert (T := cmap_types w). unfold cmap_round. cbn [fst]. destruct (d w); try contradiction; split; try reflexivity; discriminate. Qed.

Lemma cmap_read : forall txt m, cmap_text txt m -> forall fuel m0, (List.length txt < fuel)%nat -> read_cmap_from rl fuel m0 txt = Ok (plus m0 m).
Proof.
  intros txt m H. induction H as [g Hg|g w more m Hg Hw He Hm IH|g kt n more m Hg Hn Hd He Hm IH|g ds n g2 w more m Hg Hn Hg2 Hne Hw Hs He Hm IH|
    g ds g2 body l more cs rs ch Hg Hd Hn Hg2 Hne Hb Hbe Hbn He Hm IH|g ds g2 body l more cs rs ch Hg Hd Hn Hg2 Hne Hb Hbe Hbn He Hm IH|
    g ds g2 body l more cs rs ch Hg Hd Hn Hg2 Hne Hb Hbe Hbn He Hm IH|g g2 dt m' g3 more m r o z Hg Hg2 Ho Hg3 Hr1 Hr2 Hr3 He Hm IH|
    g g2 kt n g3 more m Hg Hg2 Hn Hg3 Hne He Hm IH|g g2 ds n g3 more m Hg Hg2 Hne Hd Hn Hg3 Hne3 He Hm IH]; intros fuel m0 Hf.
  - destruct fuel as [|fuel]; [lia|]. rewrite plus_end. cbn [read_cmap_from]. rewrite <- (app_nil_r g). rewrite skip_gap by exact Hg. reflexivity.
  - destruct fuel as [|fuel]; [lia|]. rewrite !app_length in Hf. destruct (first_read more m Hm) as (tk2 & r2 & E2). destruct (a_word w m0 (fst tk2) more) as [A1 A2].
    rewrite (step fuel m0 _ (d w, w) more tk2 r2 m0 more); [|rewrite skip_gap by exact Hg; apply word_read; assumption|exact E2|exact A2|exact A1].
    apply IH. destruct Hw as [_ Hw]. destruct w; [contradiction|]. cbn [List.length] in Hf. lia.
  - destruct fuel as [|fuel]; [lia|]. rewrite !app_length in Hf. cbn [List.length] in Hf. destruct (first_read more m Hm) as (tk2 & r2 & E2).
    rewrite (step fuel m0 _ (TyName, n) more tk2 r2 m0 more); [|apply name_read; assumption|exact E2|discriminate|apply other_name; exact Hd].
    apply IH. lia.
  - destruct fuel as [|fuel]; [lia|]. rewrite !app_length in Hf. destruct (first_read more m Hm) as (tk2 & r2 & E2).
    assert (Lw : (0 < List.length w)%nat) by (destruct Hw as [_ Hw]; destruct w; [contradiction|cbn; lia]).
    assert (Ld : (0 < List.length ds)%nat) by (destruct Hn as (Hn & _); destruct ds; [congruence|cbn; lia]).
    rewrite (step fuel m0 _ (TyInt, ds) (g2 ++ w ++ more) (d w, w) more m0 (g2 ++ w ++ more));
      [|apply (number_read g ds n); ends|rewrite skip_gap by exact Hg2; apply word_read; assumption|discriminate|apply no_section; [exact Hs|reflexivity]].
    destruct fuel as [|fuel]; [lia|]. destruct (a_word w m0 (fst tk2) more) as [A1 A2].
    rewrite (step fuel m0 _ (d w, w) more tk2 r2 m0 more); [|rewrite skip_gap by exact Hg2; apply word_read; assumption|exact E2|exact A2|exact A1].
    apply IH. lia.
  - destruct fuel as [|fuel]; [lia|]. unfold section_text in *. rewrite <- !app_assoc in *. rewrite !app_length in Hf.
    assert (Ld : (0 < List.length ds)%nat) by (destruct Hd as (Hd & _); destruct ds; [congruence|cbn; lia]).
    rewrite (step fuel m0 _ (TyInt, ds) (g2 ++ str "begincodespacerange" ++ body ++ str "endcodespacerange" ++ more)
      (TyKw (str "begincodespacerange"), str "begincodespacerange") (body ++ str "endcodespacerange" ++ more) (add_codespace m0 l) more).
    + rewrite IH by lia. unfold plus, add_codespace. cbn [codespace ranges chars]. rewrite <- app_assoc. reflexivity.
    + eapply (number_read g ds); [assumption|eassumption|ends].
    + rewrite skip_gap by exact Hg2. apply kw_read; [vm_compute; tauto|apply token_ends_app; [assumption|left; assumption]].
    + discriminate.
    + unfold cmap_round. cbn [fst snd]. change (ttype_eqb (TyKw (str "begincodespacerange")) (TyKw (str "begincodespacerange"))) with true. cbv iota.
      rewrite (pair_section_read _ _ ds g2 body l more); try assumption; [reflexivity|vm_compute; tauto|vm_compute; tauto].
  - destruct fuel as [|fuel]; [lia|]. unfold section_text in *. rewrite <- !app_assoc in *. rewrite !app_length in Hf.
    assert (Ld : (0 < List.length ds)%nat) by (destruct Hd as (Hd & _); destruct ds; [congruence|cbn; lia]).
    rewrite (step fuel m0 _ (TyInt, ds) (g2 ++ str "beginbfrange" ++ body ++ str "endbfrange" ++ more)
      (TyKw (str "beginbfrange"), str "beginbfrange") (body ++ str "endbfrange" ++ more) (add_ranges m0 l) more).
    + rewrite IH by lia. unfold plus, add_ranges. cbn [codespace ranges chars]. rewrite <- app_assoc. reflexivity.
    + eapply (number_read g ds); [assumption|eassumption|ends].
    + rewrite skip_gap by exact Hg2. apply kw_read; [vm_compute; tauto|apply token_ends_app; [assumption|left; assumption]].
    + discriminate.
    + unfold cmap_round. cbn [fst snd]. change (ttype_eqb (TyKw (str "beginbfrange")) (TyKw (str "begincodespacerange"))) with false.
      change (ttype_eqb (TyKw (str "beginbfrange")) (TyKw (str "beginbfrange"))) with true. cbv iota.
      rewrite (range_section_read _ _ ds g2 body l more); try assumption; [reflexivity|vm_compute; tauto|vm_compute; tauto].
  - destruct fuel as [|fuel]; [lia|]. unfold section_text in *. rewrite <- !app_assoc in *. rewrite !app_length in Hf.
    assert (Ld : (0 < List.length ds)%nat) by (destruct Hd as (Hd & _); destruct ds; [congruence|cbn; lia]).
    rewrite (step fuel m0 _ (TyInt, ds) (g2 ++ str "beginbfchar" ++ body ++ str "endbfchar" ++ more)
      (TyKw (str "beginbfchar"), str "beginbfchar") (body ++ str "endbfchar" ++ more) (add_chars m0 l) more).
    + rewrite IH by lia. unfold plus, add_chars. cbn [codespace ranges chars]. rewrite <- app_assoc. reflexivity.
    + eapply (number_read g ds); [assumption|eassumption|ends].
    + rewrite skip_gap by exact Hg2. apply kw_read; [vm_compute; tauto|apply token_ends_app; [assumption|left; assumption]].
    + discriminate.
    + unfold cmap_round. cbn [fst snd]. change (ttype_eqb (TyKw (str "beginbfchar")) (TyKw (str "begincodespacerange"))) with false.
      change (ttype_eqb (TyKw (str "beginbfchar")) (TyKw (str "beginbfrange"))) with false.
      change (ttype_eqb (TyKw (str "beginbfchar")) (TyKw (str "beginbfchar"))) with true. cbv iota.
      rewrite (pair_section_read _ _ ds g2 body l more); try assumption; [reflexivity|vm_compute; tauto|vm_compute; tauto].
  - destruct fuel as [|fuel]; [lia|]. rewrite !app_length in Hf. destruct (dict_head dt m' Ho) as (t & es & -> & Hes & Hc).
    assert (Hkb := collect_keys t es Hes). destruct (collect_facts es m' Hkb Hc) as [Hso Hko].
    assert (Td : rts (g2 ++ 60 :: 60 :: (t ++ [62; 62]) ++ g3 ++ str "def" ++ more) = Ok ((TyDictBegin, []), (t ++ [62; 62]) ++ g3 ++ str "def" ++ more)).
    { rewrite skip_gap by exact Hg2. apply skip_of_read; [reflexivity|discriminate]. }
    rewrite (step fuel m0 _ (TyName, str "CIDSystemInfo") (g2 ++ 60 :: 60 :: (t ++ [62; 62]) ++ g3 ++ str "def" ++ more)
      (TyDictBegin, []) ((t ++ [62; 62]) ++ g3 ++ str "def" ++ more) m0 more).
    + apply IH. cbn in Hf. lia.
    + apply (name_read g (str "CIDSystemInfo") (str "CIDSystemInfo")); [assumption|apply plain_name; reflexivity|]. ends.
    + exact Td.
    + discriminate.
    + unfold cmap_round. cbn [fst snd]. change (bytes_eqb (str "CIDSystemInfo") (str "CIDSystemInfo")) with true. cbv iota.
      unfold expect_skip at 1. rewrite Td. cbn [rbind fst snd ttype_eqb]. rewrite <- app_assoc. cbn [app].
      rewrite (proj2 (proj2 (reads_text d cmap_kw rl)) t es Hes) by (rewrite !app_length; cbn [List.length]; lia). cbn [rbind].
      rewrite (dict_content_collect es m' Hkb Hc). unfold has_string, has_integer.
      rewrite (proj2 (sm_find_in m' (str "Registry") _ Hso Hko ltac:(repeat constructor)) Hr1).
      rewrite (proj2 (sm_find_in m' (str "Ordering") _ Hso Hko ltac:(repeat constructor)) Hr2).
      rewrite (proj2 (sm_find_in m' (str "Supplement") _ Hso Hko ltac:(repeat constructor)) Hr3). cbn [rbind].
      rewrite def_expected by assumption. reflexivity.
  - destruct fuel as [|fuel]; [lia|]. rewrite !app_length in Hf.
    assert (Tn : rts (g2 ++ (47 :: kt) ++ g3 ++ str "def" ++ more) = Ok ((TyName, n), g3 ++ str "def" ++ more)) by (apply name_read; ends).
    rewrite (step fuel m0 _ (TyName, str "CMapName") (g2 ++ (47 :: kt) ++ g3 ++ str "def" ++ more) (TyName, n) (g3 ++ str "def" ++ more) m0 more).
    + apply IH. cbn in Hf. lia.
    + apply (name_read g (str "CMapName") (str "CMapName")); [assumption|apply plain_name; reflexivity|]. cbn [app]. ends.
    + exact Tn.
    + discriminate.
    + unfold cmap_round. cbn [fst snd]. change (bytes_eqb (str "CMapName") (str "CIDSystemInfo")) with false. change (bytes_eqb (str "CMapName") (str "CMapName")) with true. cbv iota.
      unfold expect_skip at 1. rewrite Tn. cbn [rbind fst snd ttype_eqb]. rewrite def_expected by assumption. reflexivity.
  - destruct fuel as [|fuel]; [lia|]. rewrite !app_length in Hf.
    assert (Tn : rts (g2 ++ ds ++ g3 ++ str "def" ++ more) = Ok ((TyInt, ds), g3 ++ str "def" ++ more)) by (apply (number_read g2 ds n); ends).
    rewrite (step fuel m0 _ (TyName, str "CMapType") (g2 ++ ds ++ g3 ++ str "def" ++ more) (TyInt, ds) (g3 ++ str "def" ++ more) m0 more).
    + apply IH. cbn in Hf. lia.
    + apply (name_read g (str "CMapType") (str "CMapType")); [assumption|apply plain_name; reflexivity|]. ends.
    + exact Tn.
    + discriminate.
    + unfold cmap_round. cbn [fst snd]. change (bytes_eqb (str "CMapType") (str "CIDSystemInfo")) with false. change (bytes_eqb (str "CMapType") (str "CMapName")) with false.
      change (bytes_eqb (str "CMapType") (str "CMapType")) with true. cbv iota.
      unfold expect_skip at 1. rewrite Tn. cbn [rbind fst snd ttype_eqb]. rewrite (number_value ds n Hd Hn). cbn [rbind]. rewrite def_expected by assumption. reflexivity.
Qed.
End Texts.

(** ** reading ends *)
Section Ends.
Variable rl : N -> N -> res Z.
Hypothesis rl_ends : forall n g, rl n g <> NoFuel.
Notation d := cmap_dictionary.

Lemma hex_decode_nofuel : forall s, hex_decode s <> NoFuel.
Proof. intros s. unfold hex_decode. eapply hex_pairs_nofuel; first [exact rl_ends | apply le_n]. Qed.
Lemma read_hex_nofuel : forall s, read_hex_string s <> NoFuel.
Proof.
  intros s. unfold read_hex_string. apply rbind_nofuel; [apply expect_skip_nofuel|intros [raw rest] _]. apply rbind_nofuel; [apply hex_decode_nofuel|discriminate].
Qed.
Lemma read_hex_len : forall s v r, read_hex_string s = Ok (v, r) -> (List.length r < List.length s)%nat.
Proof.
  intros s v r H. unfold read_hex_string in H. apply rbind_ok in H. destruct H as ([raw rest] & H1 & H). apply expect_skip_len in H1; [|discriminate].
  apply rbind_ok in H. destruct H as (v' & _ & H). inversion H; subst. exact H1.
Qed.
Lemma read_pairs_nofuel : forall f c s, (List.length s < f)%nat -> read_pairs f c s <> NoFuel.
Proof.
  induction f as [|f IH]; intros c s Hf; [lia|]. cbn [read_pairs]. cif; [discriminate|]. apply rbind_nofuel; [apply read_hex_nofuel|intros [a s1] H1].
  apply rbind_nofuel; [apply read_hex_nofuel|intros [b s2] H2]. apply read_hex_len in H1, H2. apply rbind_nofuel; [apply IH; lia|intros [? ?] _; discriminate].
Qed.
Lemma read_pairs_len : forall f c s l r, read_pairs f c s = Ok (l, r) -> (List.length r <= List.length s)%nat.
Proof.
  induction f as [|f IH]; intros c s l r H; cbn [read_pairs] in H; (cif_in H; [inversion H; subst; lia|]); [discriminate|].
  apply rbind_ok in H. destruct H as ([a s1] & H1 & H). apply rbind_ok in H. destruct H as ([b s2] & H2 & H). apply rbind_ok in H. destruct H as ([l' s3] & H3 & H).
  inversion H; subst. apply read_hex_len in H1, H2. apply IH in H3. lia.
Qed.
Lemma read_ranges_nofuel : forall f c s, (List.length s < f)%nat -> read_ranges rl f c s <> NoFuel.
Proof.
  induction f as [|f IH]; intros c s Hf; [lia|]. cbn [read_ranges]. cif; [discriminate|]. apply rbind_nofuel; [apply read_hex_nofuel|intros [a s1] H1].
  apply rbind_nofuel; [apply read_hex_nofuel|intros [b s2] H2]. apply read_hex_len in H1, H2. apply rbind_nofuel; [apply parse_direct_total; exact rl_ends|intros [o s3] H3].
  apply (proj1 (parse_len d rl rl_ends _)) in H3. apply rbind_nofuel; [apply IH; lia|intros [? ?] _; discriminate].
Qed.
Lemma read_ranges_len : forall f c s l r, read_ranges rl f c s = Ok (l, r) -> (List.length r <= List.length s)%nat.
Proof.
  induction f as [|f IH]; intros c s l r H; cbn [read_ranges] in H; (cif_in H; [inversion H; subst; lia|]); [discriminate|].
  apply rbind_ok in H. destruct H as ([a s1] & H1 & H). apply rbind_ok in H. destruct H as ([b s2] & H2 & H). apply rbind_ok in H. destruct H as ([o s3] & H3 & H).
  apply rbind_ok in H. destruct H as ([l' s4] & H4 & H).
  inversion H; subst. apply read_hex_len in H1, H2. apply (proj1 (parse_len d rl rl_ends _)) in H3. apply IH in H4. lia.
Qed.
Lemma pair_section_nofuel : forall a b c s, pair_section a b c s <> NoFuel.
Proof.
  intros a b c s. unfold pair_section. apply rbind_nofuel; [apply expect_skip_nofuel|intros [? s1] _]. apply rbind_nofuel; [apply stoll_nofuel|intros n _].
  apply rbind_nofuel; [apply read_pairs_nofuel; lia|intros [l s2] _]. apply rbind_nofuel; [apply expect_skip_nofuel|intros [? ?] _; discriminate].
Qed.
Lemma pair_section_len : forall a b c s l r, pair_section a b c s = Ok (l, r) -> (List.length r <= List.length s)%nat.
Proof.
  intros a b c s l r H. unfold pair_section in H. apply rbind_ok in H. destruct H as ([? s1] & H1 & H). apply rbind_ok in H. destruct H as (n & _ & H).
  apply rbind_ok in H. destruct H as ([l' s2] & H2 & H). apply rbind_ok in H. destruct H as ([? s3] & H3 & H). inversion H; subst.
  apply expect_skip_len in H1; [|discriminate]. apply expect_skip_len in H3; [|discriminate]. apply read_pairs_len in H2. lia.
Qed.
Lemma range_section_nofuel : forall a b c s, range_section rl a b c s <> NoFuel.
Proof.
  intros a b c s. unfold range_section. apply rbind_nofuel; [apply expect_skip_nofuel|intros [? s1] _]. apply rbind_nofuel; [apply stoll_nofuel|intros n _].
  apply rbind_nofuel; [apply read_ranges_nofuel; lia|intros [l s2] _]. apply rbind_nofuel; [apply expect_skip_nofuel|intros [? ?] _; discriminate].
Qed.
Lemma range_section_len : forall a b c s l r, range_section rl a b c s = Ok (l, r) -> (List.length r <= List.length s)%nat.
Proof.
  intros a b c s l r H. unfold range_section in H. apply rbind_ok in H. destruct H as ([? s1] & H1 & H). apply rbind_ok in H. destruct H as (n & _ & H).
  apply rbind_ok in H. destruct H as ([l' s2] & H2 & H). apply rbind_ok in H. destruct H as ([? s3] & H3 & H). inversion H; subst.
  apply expect_skip_len in H1; [|discriminate]. apply expect_skip_len in H3; [|discriminate]. apply read_ranges_len in H2. lia.
Qed.
Lemma has_string_nofuel : forall l k, has_string l k <> NoFuel.
Proof. intros l k. unfold has_string. destruct (sm_find k l) as [[]|]; discriminate. Qed.
Lemma has_integer_nofuel : forall l k, has_integer l k <> NoFuel.
Proof. intros l k. unfold has_integer. destruct (sm_find k l) as [[]|]; discriminate. Qed.
Lemma round_nofuel : forall m tk a s, cmap_round rl m tk a s <> NoFuel.
Proof.
  intros m tk a s. unfold cmap_round. destruct (fst tk); try discriminate. all: swap 1 2.
  - repeat (match goal with |- (if ?b then _ else _) <> _ => destruct b end; [apply rbind_nofuel; [first [apply pair_section_nofuel|apply range_section_nofuel]|intros [? ?] _; discriminate]|]). discriminate.
  - destruct (bytes_eqb (snd tk) (str "CIDSystemInfo")).
    { apply rbind_nofuel; [apply expect_skip_nofuel|intros [? s1] _]. apply rbind_nofuel; [apply (proj2 (proj2 (parse_total d rl rl_ends _))); lia|intros [l s2] _].
      apply rbind_nofuel; [apply has_string_nofuel|intros ? _]. apply rbind_nofuel; [apply has_string_nofuel|intros ? _]. apply rbind_nofuel; [apply has_integer_nofuel|intros ? _].
      apply rbind_nofuel; [apply expect_skip_nofuel|intros [? ?] _; discriminate]. }
    destruct (bytes_eqb (snd tk) (str "CMapName")).
    { apply rbind_nofuel; [apply expect_skip_nofuel|intros [? s1] _]. apply rbind_nofuel; [apply expect_skip_nofuel|intros [? ?] _; discriminate]. }
    destruct (bytes_eqb (snd tk) (str "CMapType")); [|discriminate].
    apply rbind_nofuel; [apply expect_skip_nofuel|intros [? s1] _]. apply rbind_nofuel; [apply stoll_nofuel|intros ? _]. apply rbind_nofuel; [apply expect_skip_nofuel|intros [? ?] _; discriminate].
Qed.
Lemma round_len : forall m tk a s m' r, cmap_round rl m tk a s = Ok (m', r) -> (List.length r <= List.length s)%nat.
Proof.
  intros m tk a s m' r H. unfold cmap_round in H.
  assert (G : forall x : char_map, Ok (x, s) = Ok (m', r) -> (List.length r <= List.length s)%nat) by (intros x E; inversion E; subst; lia).
  destruct (fst tk); try (apply (G m); exact H). all: swap 1 2.
  - repeat (match type of H with (if ?b then _ else _) = _ => destruct b end; [apply rbind_ok in H; destruct H as ([? ?] & H1 & H); inversion H; subst;
      first [apply pair_section_len in H1|apply range_section_len in H1]; exact H1|]). apply (G m). exact H.
  - destruct (bytes_eqb (snd tk) (str "CIDSystemInfo")).
    { apply rbind_ok in H. destruct H as ([? s1] & H1 & H). apply rbind_ok in H. destruct H as ([l s2] & H2 & H). do 3 (apply rbind_ok in H; destruct H as (? & _ & H)).
      apply rbind_ok in H. destruct H as ([? s3] & H3 & H). inversion H; subst. apply expect_skip_len in H1; [|discriminate]. apply expect_skip_len in H3; [|discriminate].
      apply (proj2 (proj2 (parse_len d rl rl_ends _))) in H2. lia. }
    destruct (bytes_eqb (snd tk) (str "CMapName")).
    { apply rbind_ok in H. destruct H as ([? s1] & H1 & H). apply rbind_ok in H. destruct H as ([? s3] & H3 & H). inversion H; subst.
      apply expect_skip_len in H1; [|discriminate]. apply expect_skip_len in H3; [|discriminate]. lia. }
    destruct (bytes_eqb (snd tk) (str "CMapType")); [|apply (G m); exact H].
    apply rbind_ok in H. destruct H as ([? s1] & H1 & H). apply rbind_ok in H. destruct H as (? & _ & H). apply rbind_ok in H. destruct H as ([? s3] & H3 & H). inversion H; subst.
    apply expect_skip_len in H1; [|discriminate]. apply expect_skip_len in H3; [|discriminate]. lia.
Qed.
Lemma read_cmap_nofuel : forall f m s, (List.length s < f)%nat -> read_cmap_from rl f m s <> NoFuel.
Proof.
  induction f as [|f IH]; intros m s Hf; [lia|]. cbn [read_cmap_from]. apply rbind_nofuel; [apply read_token_skip_nofuel|intros [tk r] H1].
  apply read_token_skip_length in H1. apply rbind_nofuel; [apply peek_nofuel|intros ah _].
  destruct (fst tk) eqn:Et; try discriminate; (apply rbind_nofuel; [apply round_nofuel|intros [m' r'] H2]; apply round_len in H2; apply IH; destruct H1 as [H1|[H1 _]]; [lia|congruence]).
Qed.
End Ends.

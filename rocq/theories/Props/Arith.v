(** C06, C07, C46, C50, C53: checked arithmetic, buffer comparison, bit flags. *)
From Coq Require Import List NArith ZArith Bool Lia.
From Verif.Model Require Import Base SMap Arith Buffer.
From Verif.Spec Require Import Arith.
From Verif.Proof Require Import Tac SMap Arith.
Import ListNotations.
Local Open Scope Z_scope.

(** C06: a checked conversion that succeeds returns the value itself; it fails exactly when the value does not fit, or when an
    unsigned value is the very maximum of a signed target. *)
Theorem C06_convert_sound : forall rt vt v w, (1 <= bits rt)%N -> (1 <= bits vt)%N ->
  representable (sgn vt) (bits vt) v -> safe_convert rt vt v = Ok w -> w = v /\ representable (sgn rt) (bits rt) v.
Proof.
  intros rt vt v w Hr Hv R H. unfold safe_convert in H. cif_in H; [|discriminate]. injection H as <-.
  apply in_range_spec in Heqb; [|assumption..]. destruct Heqb as [Q _]. split; [apply wrap_id; assumption|exact Q].
Qed.
Theorem C06_convert_exact : forall rt vt v, (1 <= bits rt)%N -> (1 <= bits vt)%N -> representable (sgn vt) (bits vt) v ->
  safe_convert rt vt v = Ok v \/
  (safe_convert rt vt v = Throw EConversion /\
    (~ representable (sgn rt) (bits rt) v \/ (sgn rt = true /\ sgn vt = false /\ v = 2 ^ (Z.of_N (bits rt) - 1) - 1))).
Proof.
  intros rt vt v Hr Hv R. assert (I := in_range_spec rt vt v Hr Hv R). unfold safe_convert.
  destruct (is_in_range rt vt v).
  - left. f_equal. apply wrap_id; [assumption|]. apply I. reflexivity.
  - right. split; [reflexivity|].
    assert (D : rep rt v \/ ~ rep rt v) by (rewrite rep_minmax; lia).
    destruct D as [D|D]; [|left; exact D]. right.
    destruct (sgn rt), (sgn vt); try (exfalso; apply diff_false_true, I; split; [exact D|intros (A & B & _); discriminate]).
    destruct (Z.eq_dec v (2 ^ (Z.of_N (bits rt) - 1) - 1)) as [E|E]; [auto|].
    exfalso. apply diff_false_true, I. split; [exact D|]. intros (_ & _ & X). contradiction.
Qed.
(** every conversion that is not unsigned-to-signed succeeds exactly on the representable values *)
Theorem C06_convert_complete_partial : forall rt vt v, (1 <= bits rt)%N -> (1 <= bits vt)%N ->
  representable (sgn vt) (bits vt) v -> ~ (sgn rt = true /\ sgn vt = false) ->
  representable (sgn rt) (bits rt) v -> safe_convert rt vt v = Ok v.
Proof.
  intros rt vt v Hr Hv R S Q. destruct (C06_convert_exact rt vt v Hr Hv R) as [E|[E [D|(A & B & _)]]]; [exact E|contradiction|].
  exfalso. apply S. auto.
Qed.
Theorem C06_convert_complete_refuted : exists v, representable false 64 v /\ representable true 64 v /\
  safe_convert int64_t uint64_t v = Throw EConversion.
Proof. exists (2 ^ 63 - 1). vm_compute. repeat split; discriminate. Qed.
(** reading a number object as the other integer type *)
Theorem C06_unsigned_number_as_signed : forall z, representable false 64 z ->
  get_integer (NUnsigned z) = if z <? 2 ^ 63 - 1 then Ok z else Throw EConversion.
Proof.
  intros z R. cbn [get_integer]. unfold representable in R. change (2 ^ Z.of_N 64) with 18446744073709551616 in R.
  change (2 ^ 63) with 9223372036854775808.
  destruct (C06_convert_exact int64_t uint64_t z ltac:(vm_compute; discriminate) ltac:(vm_compute; discriminate) R) as [E|[E D]]; rewrite E;
    unfold representable in D || idtac; cbn [sgn bits int64_t uint64_t] in *.
  - destruct (Z.ltb_spec z (9223372036854775808 - 1)) as [L|L]; [reflexivity|].
    exfalso. revert E. unfold safe_convert, is_in_range. cbn [sgn bits int64_t uint64_t Bool.eqb].
    change (tmax int64_t) with 9223372036854775807. replace (9223372036854775807 >? z) with false by lia. discriminate.
  - change (2 ^ (Z.of_N 64 - 1)) with 9223372036854775808 in D. replace (z <? 9223372036854775808 - 1) with false by lia. reflexivity.
Qed.
Theorem C06_signed_number_as_unsigned : forall z, representable true 64 z ->
  get_unsigned (NSigned z) = if 0 <=? z then Ok z else Throw EConversion.
Proof.
  intros z R. cbn [get_unsigned].
  destruct (C06_convert_exact uint64_t int64_t z ltac:(vm_compute; discriminate) ltac:(vm_compute; discriminate) R) as [E|[E D]]; rewrite E.
  - apply C06_convert_sound in E; [|vm_compute; discriminate|vm_compute; discriminate|exact R]. destruct E as [_ E]. unfold representable in E. cbn [sgn bits uint64_t] in E.
    replace (0 <=? z) with true by lia. reflexivity.
  - unfold representable in D, R. cbn [sgn bits int64_t uint64_t] in *. change (2 ^ (Z.of_N 64 - 1)) with 9223372036854775808 in R.
    change (2 ^ Z.of_N 64) with 18446744073709551616 in D. replace (0 <=? z) with false by lia. reflexivity.
Qed.
Example C06_case : safe_convert int32_t uint64_t 2147483646 = Ok 2147483646 /\ safe_convert uint16_t int64_t 65535 = Ok 65535 /\
  safe_convert uint16_t int64_t 65536 = Throw EConversion /\ safe_convert uint32_t int32_t (-1) = Throw EConversion.
Proof. vm_compute. auto. Qed.

(** C07 *)
(** nonnegative operands whose common type is unsigned (u32+u32, u64+int, int64 offset + u64 size): exact or refused *)
Theorem C07_add_unsigned : forall t1 t2 a b, (1 <= bits t1)%N -> (1 <= bits t2)%N -> sgn (common t1 t2) = false ->
  representable (sgn t1) (bits t1) a -> representable (sgn t2) (bits t2) b -> 0 <= a -> 0 <= b ->
  safe_addition (common t1 t2) t1 t2 a b =
    if a + b <? 2 ^ Z.of_N (bits (common t1 t2)) then Ok (a + b) else Throw EStdRange.
Proof. intros. apply add_unsigned; assumption. Qed.
Theorem C07_add_signed_partial : forall t a b, sgn t = true -> (32 <= bits t)%N ->
  representable true (bits t) a -> representable true (bits t) b -> representable true (bits t) (a + b) ->
  safe_addition t t t a b = if (0 <=? a) && (b <? 0) then Throw EStdRange else Ok (a + b).
Proof.
  intros t a b Hs Hb Ra Rb Rs. rewrite add_signed; try assumption; try (unfold rep; rewrite Hs; assumption).
  assert (Q : rep t (a + b)) by (unfold rep; rewrite Hs; assumption). apply rep_minmax in Q.
  replace ((tmin t <=? a + b) && (a + b <=? tmax t)) with true by lia. reflexivity.
Qed.
(** types narrower than int are added as int: two operands of the same sign give the exact sum or are refused *)
Theorem C07_add_narrow : forall t a b, sgn t = true -> (1 <= bits t < 32)%N -> representable true (bits t) a -> representable true (bits t) b ->
  (0 <= a /\ 0 <= b \/ a < 0 /\ b < 0) ->
  safe_addition t t t a b = if (- 2 ^ (Z.of_N (bits t) - 1) <=? a + b) && (a + b <=? 2 ^ (Z.of_N (bits t) - 1) - 1) then Ok (a + b) else Throw EStdRange.
Proof. intros. apply add_narrow; assumption. Qed.
Theorem C07_multiply : forall t a b, (32 <= bits t)%N -> representable (sgn t) (bits t) a -> representable (sgn t) (bits t) b ->
  0 <= a -> 0 <= b ->
  safe_multiply t t a b = if a * b <=? (if sgn t then 2 ^ (Z.of_N (bits t) - 1) - 1 else 2 ^ Z.of_N (bits t) - 1)
                          then Ok (a * b) else Throw EStdRange.
Proof. intros. apply mul_nonneg; assumption. Qed.
Theorem C07_bit_count : forall v, exists k, most_significant_bit v = Ok k /\ (v < 2 ^ k)%N /\ (v <> 0 -> 2 ^ (k - 1) <= v)%N /\ (v = 0 -> k = 0)%N.
Proof.
  intros v. destruct (msb_fuel_spec (S (N.size_nat v)) v 0 ltac:(lia)) as (k & E & H). exists k. split; [exact E|exact H].
Qed.
(** a sum that fits is refused: 5 + (-3) *)
Theorem C07_add_signed_refuted : exists a b, representable true 64 a /\ representable true 64 b /\ representable true 64 (a + b) /\
  safe_addition int64_t int64_t int64_t a b = Throw EStdRange.
Proof. exists 5, (-3). vm_compute. repeat split; discriminate. Qed.
(** a sum that does not fit is not refused: signed overflow happens before the check *)
Theorem C07_add_signed_overflow_refuted : forall a b, representable true 64 a -> representable true 64 b ->
  ~ representable true 64 (a + b) -> safe_addition int64_t int64_t int64_t a b = Undef.
Proof.
  intros a b Ra Rb Rs. rewrite add_signed; try assumption; try reflexivity; [|vm_compute; discriminate].
  cif; [|reflexivity]. exfalso. apply Rs. assert (Q := rep_minmax int64_t (a + b)). apply Q. lia.
Qed.
(** a wrong sum is returned: unsigned number, negative addend *)
Theorem C07_add_mixed_refuted : exists a b r, representable false 64 a /\ representable true 32 b /\
  safe_addition uint64_t uint64_t int32_t a b = Ok r /\ r <> a + b.
Proof. exists 5, (-10), (2 ^ 64 - 5). vm_compute. repeat split; discriminate. Qed.
Theorem C07_multiply_negative_refuted :
  (exists a b, representable true 32 (a * b) /\ safe_multiply int32_t int32_t a b = Throw EStdRange) /\
  (exists a b, representable true 32 a /\ representable true 32 b /\ safe_multiply int32_t int32_t a b = Undef).
Proof.
  split.
  - exists 1, (-2). vm_compute. repeat split; discriminate.
  - exists (- 2 ^ 31), 2. vm_compute. repeat split; discriminate.
Qed.
Example C07_case : common int64_t uint64_t = uint64_t /\ common uint32_t int32_t = uint32_t /\
  safe_addition uint64_t int64_t uint64_t 5 (2 ^ 64 - 6) = Ok (2 ^ 64 - 1) /\
  safe_addition uint64_t int64_t uint64_t 6 (2 ^ 64 - 6) = Throw EStdRange /\
  safe_multiply uint32_t uint32_t 65536 65535 = Ok 4294901760 /\ safe_multiply uint32_t uint32_t 65536 65536 = Throw EStdRange.
Proof. vm_compute. repeat split. Qed.

(** C46: buffer order is a strict total order, and value comparison of equally long buffers is numeric *)
Theorem C46_less_irreflexive : forall a, buffer_ltb a a = false.
Proof. exact ltb_irrefl. Qed.
Theorem C46_less_transitive : forall a b c, buffer_ltb a b = true -> buffer_ltb b c = true -> buffer_ltb a c = true.
Proof. exact ltb_trans. Qed.
Theorem C46_less_total : forall a b, all_bytes a -> all_bytes b -> buffer_ltb a b = false -> buffer_ltb b a = false -> a = b.
Proof. exact ltb_total. Qed.
Theorem C46_value_compare : forall a b, all_bytes a -> all_bytes b -> length a = length b ->
  value_le a b = true <-> (big_endian a <= big_endian b)%N.
Proof.
  intros a b Ha Hb L. unfold value_le. rewrite L, Nat.eqb_refl. cbn [negb]. rewrite value_le_same_spec by assumption. apply N.leb_le.
Qed.
(** with different lengths the shorter buffer counts as smaller, whatever the values *)
Theorem C46_value_compare_refuted : exists a b, all_bytes a /\ all_bytes b /\ (big_endian a < big_endian b)%N /\ value_le a b = false.
Proof. exists [0; 1]%N, [2]%N. vm_compute. repeat split; repeat constructor. Qed.
Example C46_case : buffer_ltb [255]%N [1]%N = true /\ value_le [1]%N [255]%N = true /\ value_le [2; 0]%N [1; 255]%N = false.
Proof. vm_compute. auto. Qed.

(** C50: bit flags *)
Theorem C50_set_bit : forall z pos value, representable true 64 z -> 0 <= pos < 64 -> exists z',
  toggle_bit (NSigned z) pos value = Ok (NSigned z') /\ representable true 64 z' /\
  (forall i, 0 <= i < 64 -> is_bit_set (NSigned z') i = if i =? pos then Ok value else is_bit_set (NSigned z) i).
Proof.
  intros z pos value Hz Hp. unfold toggle_bit. replace ((pos <? 0) || (64 <=? pos)) with false by lia. cbv zeta.
  eexists. split; [reflexivity|]. split; [apply (wrap_rep int64_t); vm_compute; discriminate|].
  intros i Hi. unfold is_bit_set. replace ((i <? 0) || (64 <=? i)) with false by lia.
  rewrite !bit_set, !negb_involutive, toggle_testbit; [|vm_compute; discriminate|exact Hp|exact Hi].
  destruct (i =? pos); reflexivity.
Qed.
Theorem C50_set_bit_unsigned : forall z pos value, representable false 64 z -> 0 <= pos < 64 -> exists z',
  toggle_bit (NUnsigned z) pos value = Ok (NUnsigned z') /\ representable false 64 z' /\
  (forall i, 0 <= i < 64 -> is_bit_set (NUnsigned z') i = if i =? pos then Ok value else is_bit_set (NUnsigned z) i).
Proof.
  intros z pos value Hz Hp. unfold toggle_bit. replace ((pos <? 0) || (64 <=? pos)) with false by lia. cbv zeta.
  eexists. split; [reflexivity|]. split; [apply (wrap_rep uint64_t); vm_compute; discriminate|].
  intros i Hi. unfold is_bit_set. replace ((i <? 0) || (64 <=? i)) with false by lia.
  rewrite !bit_set, !negb_involutive, toggle_testbit; [|vm_compute; discriminate|exact Hp|exact Hi].
  destruct (i =? pos); reflexivity.
Qed.
(** the reported bit is the bit of the number *)
Theorem C50_is_bit_set : forall z pos, representable true 64 z -> 0 <= pos < 64 ->
  is_bit_set (NSigned z) pos = Ok ((z / 2 ^ pos) mod 2 =? 1).
Proof.
  intros z pos Hz Hp. unfold is_bit_set. replace ((pos <? 0) || (64 <=? pos)) with false by lia.
  rewrite bit_set, negb_involutive, Z.testbit_eqb by lia. reflexivity.
Qed.
Theorem C50_real_refused : forall pos v, toggle_bit NReal pos v = Throw EGeneral /\ is_bit_set NReal pos = Throw EGeneral.
Proof. intros. split; reflexivity. Qed.
(** positions outside the 64 bits of the number are not checked *)
Theorem C50_position_refuted : forall z v, toggle_bit (NSigned z) 64 v = Undef /\ is_bit_set (NSigned z) 64 = Undef /\ is_bit_set (NSigned z) (-1) = Undef.
Proof. intros. repeat split. Qed.
Example C50_case : toggle_bit (NSigned (-1)) 63 false = Ok (NSigned (2 ^ 63 - 1)) /\ toggle_bit (NSigned 5) 1 true = Ok (NSigned 7) /\
  is_bit_set (NSigned (-4)) 1 = Ok false /\ is_bit_set (NSigned (-4)) 63 = Ok true.
Proof. vm_compute. auto. Qed.

(** C53: comparing a buffer with a C string *)
(** a buffer without zero bytes "equals" exactly the strings it is a prefix of *)
Theorem C53_cstring_compare : forall buffer s, (forall x, In x buffer -> x <> 0%N) ->
  buffer_eq_cstr buffer s = true <-> exists rest, s = buffer ++ rest.
Proof. intros. apply strncmp_eq_spec. assumption. Qed.
Theorem C53_cstring_equal_partial : forall s, (forall x, In x s -> x <> 0%N) -> buffer_eq_cstr s s = true.
Proof. intros s H. apply C53_cstring_compare; [assumption|]. exists []. symmetry. apply app_nil_r. Qed.
Theorem C53_cstring_refuted : exists buffer s, buffer_eq_cstr buffer s = true /\ buffer <> s.
Proof. exists [79]%N, [79; 98; 106]%N. split; [reflexivity|discriminate]. Qed.
Theorem C53_empty_refuted : forall s, buffer_eq_cstr [] s = true.
Proof. reflexivity. Qed.
Example C53_case : buffer_eq_cstr [79; 98]%N [79; 98]%N = true /\ buffer_eq_cstr [79; 98; 99]%N [79; 98]%N = false.
Proof. split; reflexivity. Qed.

Print Assumptions C06_convert_sound.
Print Assumptions C06_convert_exact.
Print Assumptions C06_convert_complete_partial.
Print Assumptions C06_convert_complete_refuted.
Print Assumptions C06_unsigned_number_as_signed.
Print Assumptions C06_signed_number_as_unsigned.
Print Assumptions C07_add_unsigned.
Print Assumptions C07_add_signed_partial.
Print Assumptions C07_add_narrow.
Print Assumptions C07_multiply.
Print Assumptions C07_bit_count.
Print Assumptions C07_add_signed_refuted.
Print Assumptions C07_add_signed_overflow_refuted.
Print Assumptions C07_add_mixed_refuted.
Print Assumptions C07_multiply_negative_refuted.
Print Assumptions C46_less_irreflexive.
Print Assumptions C46_less_transitive.
Print Assumptions C46_less_total.
Print Assumptions C46_value_compare.
Print Assumptions C46_value_compare_refuted.
Print Assumptions C50_set_bit.
Print Assumptions C50_set_bit_unsigned.
Print Assumptions C50_is_bit_set.
Print Assumptions C50_real_refused.
Print Assumptions C50_position_refuted.
Print Assumptions C53_cstring_compare.
Print Assumptions C53_cstring_equal_partial.
Print Assumptions C53_cstring_refuted.
Print Assumptions C53_empty_refuted.

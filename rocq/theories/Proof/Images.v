(** Lemmas for C81. *)
From Coq Require Import List NArith ZArith Arith Bool Lia String.
From Coq Require Import List.
From Verif.Model Require Import Base SMap Object Arith Containers Encryption Images.
From Verif.Spec Require Import Images.
From Verif.Proof Require Import Tac.
Import ListNotations.
Local Open Scope nat_scope.

(** *** libjpeg *)
Lemma skipn_nth : forall A (l : list A) n, skipn n l = match nth_error l n with Some x => x :: skipn (S n) l | None => [] end.
Proof. intros A l. induction l as [|a l IH]; intros [|n]; try reflexivity. cbn [skipn nth_error]. apply IH. Qed.
Lemma skipn_twice : forall A (l : list A) m n, skipn n (skipn m l) = skipn (m + n) l.
Proof. intros A l. induction l as [|a l IH]; intros [|m] n; try reflexivity; [destruct n; reflexivity|]. cbn [skipn Nat.add]. apply IH. Qed.
Definition of_meal {A} (o : meal A) : res A := match o with Finished a => Ok a | Refused => Throw EGeneral | Starved => Undef end.
Lemma serve_feed : forall A (r : reader A) input pos, (pos <= size_of input)%N -> serve input pos r = of_meal (feed r (skipn (N.to_nat pos) input)).
Proof.
  intros A r. induction r as [|a|k IH|n r IH]; intros input pos Hp; cbn [serve feed of_meal]; [reflexivity|reflexivity| |].
  - rewrite skipn_nth. destruct (nth_error input (N.to_nat pos)) as [b|] eqn:E; [|reflexivity].
    assert (N.to_nat pos < length input) by (apply nth_error_Some; rewrite E; discriminate). unfold size_of in *. rewrite IH by (unfold size_of; lia).
    replace (N.to_nat (pos + 1)) with (S (N.to_nat pos)) by lia. reflexivity.
  - unfold size_of in *. rewrite skipn_length. replace (n <=? N.of_nat (length input - N.to_nat pos))%N with (pos + n <=? N.of_nat (length input))%N.
    + destruct (N.leb_spec (pos + n) (N.of_nat (length input))); [|reflexivity]. rewrite IH by (unfold size_of; lia). rewrite skipn_twice. replace (N.to_nat (pos + n)) with (N.to_nat pos + N.to_nat n) by lia. reflexivity.
    + destruct (N.leb_spec (pos + n) (N.of_nat (length input))), (N.leb_spec n (N.of_nat (length input - N.to_nat pos))); try reflexivity; lia.
Qed.

Lemma copy_pixels_all : forall n size line buffer, length line = n * size -> length buffer = n * size -> copy_pixels n size line buffer = line.
Proof.
  induction n as [|n IH]; intros size line buffer Hl Hb; cbn [copy_pixels]; [destruct line, buffer; cbn in *; congruence|].
  rewrite IH; [apply firstn_skipn|rewrite skipn_length; lia|rewrite skipn_length; lia].
Qed.
Lemma copy_line_all : forall p line buffer, (p_components p = 1 \/ p_components p = 3 \/ p_components p = 4)%N ->
  length line = N.to_nat (p_width p * p_components p) -> length buffer = N.to_nat (p_width p * p_components p) -> copy_line p line buffer = line.
Proof.
  intros p line buffer Hc Hl Hb. unfold copy_line. destruct Hc as [E|[E|E]]; rewrite E in *; cbn [N.eqb Pos.eqb].
  - rewrite firstn_all2, skipn_all2, app_nil_r by lia. reflexivity.
  - apply copy_pixels_all; lia.
  - apply copy_pixels_all; lia.
Qed.
Lemma copy_lines_all : forall p lines buffer, (p_components p = 1 \/ p_components p = 3 \/ p_components p = 4)%N ->
  Forall (fun l => length l = N.to_nat (p_width p * p_components p)) lines -> length buffer = N.to_nat (p_width p * p_components p) ->
  copy_lines p lines buffer = concat lines.
Proof.
  intros p lines. induction lines as [|l r IH]; intros buffer Hc Hf Hb; [reflexivity|]. apply Forall_cons_iff in Hf. destruct Hf as (Hl & Hr).
  cbn [copy_lines concat]. rewrite copy_line_all by assumption. rewrite IH by assumption. reflexivity.
Qed.
Lemma copy_lines_none : forall p lines buffer, (p_components p <> 1 /\ p_components p <> 3 /\ p_components p <> 4)%N -> copy_lines p lines buffer = concat (repeat buffer (length lines)).
Proof.
  intros p lines. induction lines as [|l r IH]; intros buffer (H1 & H3 & H4); [reflexivity|]. cbn [copy_lines length repeat concat].
  assert (E : copy_line p l buffer = buffer) by (unfold copy_line; rewrite (proj2 (N.eqb_neq _ _) H1), (proj2 (N.eqb_neq _ _) H3), (proj2 (N.eqb_neq _ _) H4); reflexivity).
  rewrite E, IH by auto. reflexivity.
Qed.
Lemma wrap_small : forall z, (0 <= z < 2 ^ 31)%Z -> wrap int32_t z = z.
Proof.
  intros z Hz. unfold wrap, int32_t. cbn [sgn bits]. change (2 ^ Z.of_N 32)%Z with 4294967296%Z. change (2 ^ (Z.of_N 32 - 1))%Z with 2147483648%Z. change (2 ^ 31)%Z with 2147483648%Z in Hz.
  rewrite Z.mod_small by lia. cbn [andb]. destruct (Z.leb_spec 2147483648 z); [lia|reflexivity].
Qed.
Lemma multiply_u32 : forall a b, (a * b < 2 ^ 32)%N -> safe_multiply uint32_t uint32_t (Z.of_N a) (Z.of_N b) = Ok (Z.of_N (a * b)) \/ (2 ^ 32 <= a \/ 2 ^ 32 <= b)%N.
Proof.
  intros a b H. destruct (N.le_gt_cases (2 ^ 32) a) as [|Ha]; [tauto|]. destruct (N.le_gt_cases (2 ^ 32) b) as [|Hb]; [tauto|]. left. unfold safe_multiply.
  destruct (Z.eqb_spec (Z.of_N a) 0) as [Ea|Ea]; [cbn [orb]; replace (a * b)%N with 0%N by lia; reflexivity|].
  destruct (Z.eqb_spec (Z.of_N b) 0) as [Eb|Eb]; [cbn [orb]; replace (a * b)%N with 0%N by lia; reflexivity|]. cbn [orb].
  assert (C : forall n, (n < 2 ^ 32)%N -> safe_convert uint32_t uint32_t (Z.of_N n) = Ok (Z.of_N n)).
  { intros n Hn. unfold safe_convert, is_in_range, is_in_range_same. cbn [sgn uint32_t Bool.eqb ity_eqb bits N.eqb Pos.eqb andb]. f_equal. unfold wrap. cbn [sgn bits uint32_t andb]. change (2 ^ Z.of_N 32)%Z with 4294967296%Z. change (2 ^ 32)%N with 4294967296%N in Hn. apply Z.mod_small. lia. }
  rewrite !C by assumption. cbn [rbind].
  change (tmax uint32_t) with 4294967295%Z. change (2 ^ 32)%N with 4294967296%N in *.
  assert (Hq : (Z.of_N a <= Z.quot 4294967295 (Z.of_N b))%Z). { rewrite Z.quot_div_nonneg by lia. apply Z.div_le_lower_bound; nia. }
  destruct (Z.ltb_spec (Z.quot 4294967295 (Z.of_N b)) (Z.of_N a)); [lia|]. cbn [promote uint32_t bits N.ltb N.compare Pos.compare Pos.compare_cont arith sgn rbind].
  assert (W : wrap uint32_t (Z.of_N a * Z.of_N b) = Z.of_N (a * b)).
  { unfold wrap. cbn [sgn bits uint32_t andb]. change (2 ^ Z.of_N 32)%Z with 4294967296%Z. rewrite <- N2Z.inj_mul. apply Z.mod_small. lia. }
  unfold arith, promote. cbn [uint32_t bits sgn N.ltb N.compare Pos.compare Pos.compare_cont rbind]. change {| sgn := false; bits := 32 |} with uint32_t. rewrite W. f_equal.
  unfold wrap. cbn [sgn bits uint32_t andb]. change (2 ^ Z.of_N 32)%Z with 4294967296%Z. apply Z.mod_small. lia.
Qed.

(** *** the destination *)
Lemma emit_all : forall out d, written (fold_left emit out d) ++ held (fold_left emit out d) = written d ++ held d ++ out.
Proof.
  induction out as [|b out IH]; intros d; cbn [fold_left]; [rewrite app_nil_r; reflexivity|]. rewrite IH. unfold emit. destruct (buffer_size <=? size_of (held d ++ [b]))%N; cbn [written held app]; rewrite <- ?app_assoc; reflexivity.
Qed.
Definition stored (d : destination) : bytes := written d ++ held d.
Lemma emit_stored : forall out d, stored (fold_left emit out d) = stored d ++ out.
Proof. intros out d. unfold stored. rewrite emit_all, app_assoc. reflexivity. Qed.
Lemma compress_lines_ok : forall J (write_line : J -> bytes -> J * bytes) finish lines row rest left j d,
  Forall (fun l => length l = N.to_nat row) lines -> (Z.of_N row * Z.of_nat (length lines) <= left)%Z ->
  exists j' d', compress_lines J write_line (length lines) row (concat lines ++ rest) left j d = Ok (j', d') /\
    stored d' ++ finish j' = stored d ++ bytes_of_lines write_line finish j lines.
Proof.
  intros J write_line finish lines. induction lines as [|l r IH]; intros row rest left j d Hf Hl.
  - exists j, d. split; reflexivity.
  - apply Forall_cons_iff in Hf. destruct Hf as (El & Hr). cbn [length] in Hl. cbn [length compress_lines concat bytes_of_lines].
    destruct (Z.ltb_spec left (Z.of_N row)); [nia|]. rewrite <- app_assoc. destruct (N.ltb_spec (size_of (l ++ concat r ++ rest)) row) as [H0|H0]; [unfold size_of in H0; rewrite app_length in H0; lia|].
    rewrite <- El, firstn_app, Nat.sub_diag, firstn_all, firstn_O, app_nil_r, skipn_app, Nat.sub_diag, skipn_all. cbn [skipn app].
    destruct (write_line j l) as [j1 out] eqn:E. cbn [fst snd].
    destruct (IH row rest (left - Z.of_N row)%Z j1 (fold_left emit out d) Hr) as (j' & d' & E1 & E2); [nia|]. exists j', d'. split; [exact E1|]. rewrite E2, emit_stored, <- app_assoc. reflexivity.
Qed.
Lemma compress_lines_short : forall J (write_line : J -> bytes -> J * bytes) n row src left j d,
  (size_of src < row * N.of_nat n)%N -> compress_lines J write_line n row src left j d = Throw EGeneral.
Proof.
  intros J write_line n. induction n as [|n IH]; intros row src left j d H; [lia|]. cbn [compress_lines]. destruct (left <? Z.of_N row)%Z; [reflexivity|].
  destruct (N.ltb_spec (size_of src) row); [reflexivity|]. destruct (write_line j (firstn (N.to_nat row) src)) as [j' out]. apply IH. unfold size_of in *. rewrite skipn_length. lia.
Qed.

(** *** JPX: loops *)
Lemma Ok_inj : forall A (a b : A), Ok a = Ok b -> a = b.
Proof. intros A a b E. congruence. Qed.
Lemma loop_rule : forall A (P : nat -> A -> Prop) f n i a, P i a ->
  (forall j b, i <= j < i + n -> P j b -> exists b', f j b = Ok b' /\ P (S j) b') -> exists a', loop n i f a = Ok a' /\ P (i + n) a'.
Proof.
  intros A P f n. induction n as [|n IH]; intros i a Ha Hf; [exists a; rewrite Nat.add_0_r; split; [reflexivity|exact Ha]|].
  destruct (Hf i a) as (b & Eb & Hb); [lia|exact Ha|]. cbn [loop]. rewrite Eb. cbn [rbind]. destruct (IH (S i) b Hb) as (a' & E & H); [intros; apply Hf; [lia|assumption]|].
  exists a'. split; [exact E|]. replace (i + S n) with (S i + n) by lia. exact H.
Qed.
Lemma loop_only : forall A (Inv : A -> Prop) f n i a a', (forall j b b', Inv b -> f j b = Ok b' -> Inv b') -> Inv a -> loop n i f a = Ok a' ->
  Inv a' /\ forall j, i <= j < i + n -> exists b b', Inv b /\ f j b = Ok b'.
Proof.
  intros A Inv f n. induction n as [|n IH]; intros i a a' Hf Ha E; cbn [loop] in E; [apply Ok_inj in E; subst a'; split; [exact Ha|intros; lia]|].
  apply rbind_ok in E. destruct E as (b & Eb & E). destruct (IH (S i) b a' Hf (Hf _ _ _ Ha Eb) E) as (H1 & H2). split; [exact H1|].
  intros j Hj. destruct (Nat.eq_dec j i) as [->|]; [exists a, b; auto|apply H2; lia].
Qed.
Definition calm {A} (Inv : A -> Prop) (r : res A) : Prop := r = Undef \/ exists a, r = Ok a /\ Inv a.
Lemma loop_calm : forall A (Inv : A -> Prop) f n i a, Inv a -> (forall j b, i <= j < i + n -> Inv b -> calm Inv (f j b)) -> calm Inv (loop n i f a).
Proof.
  intros A Inv f n. induction n as [|n IH]; intros i a Ha Hf; [right; exists a; auto|]. cbn [loop]. destruct (Hf i a) as [E|(b & E & Hb)]; [lia|exact Ha| |].
  - rewrite E. left. reflexivity.
  - rewrite E. cbn [rbind]. apply IH; [exact Hb|]. intros. apply Hf; [lia|assumption].
Qed.

Lemma byte_in : forall v, (0 <= v <= 255)%Z -> safe_convert uint8_t int32_t v = Ok v.
Proof.
  intros v H. unfold safe_convert, is_in_range. cbn [sgn uint8_t int32_t Bool.eqb bits]. destruct (Z.ltb_spec v 0); [lia|]. unfold is_in_range_same. change (ity_eqb uint8_t {| sgn := false; bits := 32 |}) with false. cbv iota.
  change (tmin uint8_t) with 0%Z. change (tmax uint8_t) with 255%Z. destruct (Z.leb_spec 0 v); [|lia]. destruct (Z.leb_spec v 255); [|lia]. cbn [andb]. f_equal.
  unfold wrap. cbn [sgn bits uint8_t andb]. change (2 ^ Z.of_N 8)%Z with 256%Z. apply Z.mod_small. lia.
Qed.
Lemma byte_out : forall v b, safe_convert uint8_t int32_t v = Ok b -> (0 <= v <= 255)%Z.
Proof.
  intros v b. unfold safe_convert, is_in_range. cbn [sgn uint8_t int32_t Bool.eqb bits]. destruct (Z.ltb_spec v 0); [discriminate|]. unfold is_in_range_same. change (ity_eqb uint8_t {| sgn := false; bits := 32 |}) with false. cbv iota.
  change (tmin uint8_t) with 0%Z. change (tmax uint8_t) with 255%Z. destruct (Z.leb_spec 0 v); [|discriminate]. destruct (Z.leb_spec v 255); [intros _; lia|discriminate].
Qed.
Lemma u32_small : forall n, (n < 2 ^ 32)%N -> u32 n = n.
Proof. intros n H. unfold u32. apply N.mod_small. exact H. Qed.
Lemma u32_lt : forall n, (u32 n < 2 ^ 32)%N.
Proof. intros n. unfold u32. apply N.mod_lt. discriminate. Qed.
Lemma u32_add : forall a b, u32 (u32 a + b) = u32 (a + b).
Proof. intros. unfold u32. apply N.add_mod_idemp_l. discriminate. Qed.
Lemma u32_mul : forall a b, u32 (u32 a * b) = u32 (a * b).
Proof. intros. unfold u32. apply N.mul_mod_idemp_l. discriminate. Qed.

(** the number of a sample in the result *)
Definition sample_index (m : image) (y x k : nat) : nat := (y * N.to_nat (x1 m) + x) * length (comps m) + k.
Lemma result_offset : forall m y x k,
  u32 (u32 (u32 (u32 (N.of_nat y * x1 m) + N.of_nat x) * N.of_nat (length (comps m))) + N.of_nat k) = u32 (N.of_nat (sample_index m y x k)).
Proof.
  intros m y x k. rewrite (u32_add (N.of_nat y * x1 m) (N.of_nat x)), (u32_mul (N.of_nat y * x1 m + N.of_nat x) (N.of_nat (length (comps m)))), (u32_add ((N.of_nat y * x1 m + N.of_nat x) * N.of_nat (length (comps m)))). f_equal.
  unfold sample_index. lia.
Qed.
Lemma data_offset : forall m y x, u32 (u32 (N.of_nat y * x1 m) + N.of_nat x) = u32 (N.of_nat (y * N.to_nat (x1 m) + x)).
Proof. intros m y x. rewrite (u32_add (N.of_nat y * x1 m) (N.of_nat x)). f_equal. lia. Qed.
Lemma sample_index_bound : forall m y x k, y < N.to_nat (y1 m) -> x < N.to_nat (x1 m) -> k < length (comps m) ->
  sample_index m y x k < N.to_nat (image_samples m) /\ y * N.to_nat (x1 m) + x < N.to_nat (image_points m).
Proof.
  intros m y x k Hy Hx Hk. unfold sample_index, image_samples, image_points. rewrite !N2Nat.inj_mul, Nat2N.id. set (w := N.to_nat (x1 m)) in *. set (h := N.to_nat (y1 m)) in *. set (nc := length (comps m)) in *.
  assert (H1 : y * w + x < w * h) by (clearbody w h; nia). split; [|exact H1]. clearbody w h nc. nia.
Qed.
Lemma set_at_length : forall l i v l', set_at l i v = Ok l' -> length l' = length l.
Proof.
  intros l i v l' E. unfold set_at in E. destruct (N.ltb_spec i (size_of l)); [|discriminate]. apply Ok_inj in E. subst l'. unfold size_of in *. rewrite app_length, firstn_length. cbn [length]. rewrite skipn_length. lia.
Qed.
Lemma put_sample_length : forall m y x k l l', put_sample m y x k l = Ok l' -> length l' = length l.
Proof.
  intros m y x k l l' E. unfold put_sample in E. destruct (nth_error (comps m) k) as [c|]; [|discriminate]. destruct (nth_error (c_data c) _) as [v|]; [|discriminate].
  apply rbind_ok in E. destruct E as (b & _ & E). apply set_at_length in E. exact E.
Qed.
Lemma loop_length : forall (f : nat -> bytes -> res bytes) n i a a', (forall j b b', f j b = Ok b' -> length b' = length b) -> loop n i f a = Ok a' -> length a' = length a.
Proof.
  intros f n. induction n as [|n IH]; intros i a a' Hf E; cbn [loop] in E; [apply Ok_inj in E; subst; reflexivity|]. apply rbind_ok in E. destruct E as (b & E1 & E2).
  apply IH in E2; [|exact Hf]. apply Hf in E1. congruence.
Qed.

Lemma put_samples_only : forall m size out, put_samples m (repeat 0%N size) = Ok out -> forall y x k, y < N.to_nat (y1 m) -> x < N.to_nat (x1 m) -> k < length (comps m) ->
  exists l l', length l = size /\ put_sample m (N.of_nat y) (N.of_nat x) k l = Ok l'.
Proof.
  intros m size out E y x k Hy Hx Hk. unfold put_samples in E.
  apply loop_only with (Inv := fun l => length l = size) in E; [|intros j b b' Hb Ef|apply repeat_length].
  2:{ apply loop_length in Ef; [congruence|]. intros j1 b1 b1' Ef1. apply loop_length in Ef1; [exact Ef1|]. intros j2 b2 b2' Ef2. apply put_sample_length in Ef2. exact Ef2. }
  destruct E as (_ & E). destruct (E y) as (b & b' & Hb & Eb); [lia|]. clear E.
  apply loop_only with (Inv := fun l => length l = size) in Eb; [|intros j c c' Hc Ef|exact Hb].
  2:{ apply loop_length in Ef; [congruence|]. intros j2 b2 b2' Ef2. apply put_sample_length in Ef2. exact Ef2. }
  destruct Eb as (_ & E). destruct (E x) as (c & c' & Hc & Ec); [lia|]. clear E.
  apply loop_only with (Inv := fun l => length l = size) in Ec; [|intros j d d' Hd Ef; apply put_sample_length in Ef; congruence|exact Hc].
  destruct Ec as (_ & E). destruct (E k) as (d & d' & Hd & Ed); [lia|]. exists d, d'. auto.
Qed.

(** the sample whose number is [i] *)
Lemma sample_at : forall m i, i < N.to_nat (image_samples m) -> exists y x k, y < N.to_nat (y1 m) /\ x < N.to_nat (x1 m) /\ k < length (comps m) /\ sample_index m y x k = i.
Proof.
  intros m i H. unfold image_samples in H. rewrite !N2Nat.inj_mul, Nat2N.id in H. unfold sample_index. set (w := N.to_nat (x1 m)) in *. set (h := N.to_nat (y1 m)) in *. set (nc := length (comps m)) in *. clearbody w h nc.
  assert (Hn : nc <> 0) by nia. assert (Hw : w <> 0) by nia. exists (i / nc / w), ((i / nc) mod w), (i mod nc).
  assert (H1 : i / nc < w * h) by (apply Nat.div_lt_upper_bound; [exact Hn|nia]).
  assert (H2 : i / nc / w < h) by (apply Nat.div_lt_upper_bound; assumption).
  assert (H3 : (i / nc) mod w < w) by (apply Nat.mod_upper_bound; exact Hw). assert (H4 : i mod nc < nc) by (apply Nat.mod_upper_bound; exact Hn).
  split; [exact H2|]. split; [exact H3|]. split; [exact H4|].
  rewrite (Nat.mul_comm (i / nc / w) w), <- (Nat.div_mod (i / nc) w Hw), (Nat.mul_comm (i / nc) nc), <- (Nat.div_mod i nc Hn). reflexivity.
Qed.
Definition result_size (m : image) : N := u32 (u32 (x1 m * y1 m) * N.of_nat (length (comps m))).
Lemma result_size_eq : forall m, result_size m = u32 (image_samples m).
Proof. intros m. unfold result_size, image_samples. apply u32_mul. Qed.

(** what succeeds is a picture of 8 bit samples in full size *)
Lemma jpx_only : forall m out, put_samples m (repeat 0%N (N.to_nat (result_size m))) = Ok out ->
  (image_samples m < 2 ^ 32)%N /\ (comps m = [] \/ forall y x k, y < N.to_nat (y1 m) -> x < N.to_nat (x1 m) -> k < length (comps m) -> exists v, sample m y x k = Some v /\ eight_bits v).
Proof.
  intros m out E. pose proof (put_samples_only m _ out E) as H.
  assert (Hs : (image_samples m < 2 ^ 32)%N).
  { destruct (N.lt_ge_cases (image_samples m) (2 ^ 32)) as [|Hge]; [assumption|exfalso]. pose proof (u32_lt (image_samples m)) as Hlt. rewrite <- result_size_eq in Hlt.
    destruct (sample_at m (N.to_nat (result_size m))) as (y & x & k & Hy & Hx & Hk & Ei); [lia|]. destruct (H y x k Hy Hx Hk) as (l & l' & Hl & El). unfold put_sample in El.
    rewrite result_offset, Ei, N2Nat.id, (u32_small (result_size m)) in El by exact Hlt. destruct (nth_error (comps m) k) as [c|]; [|discriminate]. destruct (nth_error (c_data c) _) as [v|]; [|discriminate].
    apply rbind_ok in El. destruct El as (b & _ & El). unfold set_at, size_of in El. rewrite Hl, N2Nat.id in El. rewrite N.ltb_irrefl in El. discriminate. }
  split; [exact Hs|]. right. intros y x k Hy Hx Hk. destruct (H y x k Hy Hx Hk) as (l & l' & Hl & El). unfold put_sample in El. unfold sample.
  destruct (nth_error (comps m) k) as [c|]; [|discriminate]. rewrite data_offset in El. destruct (sample_index_bound m y x k Hy Hx Hk) as (B1 & B2).
  assert (Hp : (image_points m < 2 ^ 32)%N) by (unfold image_points, image_samples in *; assert (0 < length (comps m)) by lia; nia).
  rewrite u32_small in El by lia. rewrite Nat2N.id in El. destruct (nth_error (c_data c) _) as [v|]; [|discriminate]. exists v. split; [reflexivity|]. apply rbind_ok in El. destruct El as (b & Eb & _). apply byte_out in Eb. exact Eb.
Qed.

(** ... and such a picture succeeds *)
Definition sample_value (m : image) (i : nat) : N :=
  let p := i / length (comps m) in
  match nth_error (comps m) (i mod length (comps m)) with
  | Some c => match nth_error (c_data c) p with Some v => Z.to_N v | None => 0%N end
  | None => 0%N
  end.
Lemma index_div : forall m y x k, k < length (comps m) -> sample_index m y x k / length (comps m) = y * N.to_nat (x1 m) + x /\ sample_index m y x k mod length (comps m) = k.
Proof.
  intros m y x k Hk. unfold sample_index. set (p := y * N.to_nat (x1 m) + x). set (nc := length (comps m)) in *. clearbody p nc.
  split; [rewrite Nat.div_add_l by lia; rewrite Nat.div_small by exact Hk; lia|]. rewrite Nat.add_comm, Nat.mod_add by lia. apply Nat.mod_small. exact Hk.
Qed.
Definition done (m : image) (total n : nat) (l : bytes) : Prop := l = map (sample_value m) (seq 0 n) ++ repeat 0%N (total - n).
Lemma put_one : forall m y x k l, (image_samples m < 2 ^ 32)%N -> y < N.to_nat (y1 m) -> x < N.to_nat (x1 m) -> k < length (comps m) ->
  (exists v, sample m y x k = Some v /\ eight_bits v) -> done m (N.to_nat (image_samples m)) (sample_index m y x k) l ->
  exists l', put_sample m (N.of_nat y) (N.of_nat x) k l = Ok l' /\ done m (N.to_nat (image_samples m)) (S (sample_index m y x k)) l'.
Proof.
  intros m y x k l Hs Hy Hx Hk (v & Ev & Hv) Hd. destruct (sample_index_bound m y x k Hy Hx Hk) as (B1 & B2).
  assert (Hp : (image_points m < 2 ^ 32)%N) by (unfold image_points, image_samples in *; assert (0 < length (comps m)) by lia; nia).
  unfold put_sample. rewrite result_offset, data_offset. rewrite !u32_small by lia. rewrite Nat2N.id. pose proof Ev as Ev'. unfold sample in Ev. destruct (nth_error (comps m) k) as [c|] eqn:Ec; [|discriminate]. rewrite Ev.
  rewrite byte_in by exact Hv. cbn [rbind]. set (i := sample_index m y x k) in *. set (total := N.to_nat (image_samples m)) in *.
  assert (El : length l = total). { rewrite Hd, app_length, map_length, seq_length, repeat_length. lia. }
  assert (Eg : sample_value m i = Z.to_N v). { unfold sample_value. destruct (index_div m y x k Hk) as (D1 & D2). fold i in D1, D2. rewrite D1, D2, Ec, Ev. reflexivity. }
  unfold set_at, size_of. rewrite El. destruct (N.ltb_spec (N.of_nat i) (N.of_nat total)); [|lia]. rewrite Nat2N.id. eexists. split; [reflexivity|]. unfold done in *.
  assert (Hr : total - i = S (total - S i)) by lia. rewrite Hd, Hr. assert (Em : length (map (sample_value m) (seq 0 i)) = i) by (rewrite map_length, seq_length; reflexivity).
  rewrite firstn_app, Em, Nat.sub_diag, firstn_all2 by lia. cbn [firstn]. rewrite app_nil_r, skipn_app, skipn_all2 by lia. rewrite Em. replace (i + 1 - i) with 1 by lia. cbn [repeat skipn app].
  rewrite seq_S, map_app. cbn [Nat.add map]. rewrite Eg, <- app_assoc. reflexivity.
Qed.
Lemma jpx_all : forall m, (image_samples m < 2 ^ 32)%N ->
  (forall y x k, y < N.to_nat (y1 m) -> x < N.to_nat (x1 m) -> k < length (comps m) -> exists v, sample m y x k = Some v /\ eight_bits v) ->
  put_samples m (repeat 0%N (N.to_nat (result_size m))) = Ok (map (sample_value m) (seq 0 (N.to_nat (image_samples m)))).
Proof.
  intros m Hs H. rewrite result_size_eq, u32_small by exact Hs. set (total := N.to_nat (image_samples m)). unfold put_samples.
  destruct (loop_rule bytes (fun y l => done m total (sample_index m y 0 0) l)
    (fun y r => loop (N.to_nat (x1 m)) 0 (fun x r => loop (length (comps m)) 0 (fun k r => put_sample m (N.of_nat y) (N.of_nat x) k r) r) r)
    (N.to_nat (y1 m)) 0 (repeat 0%N total)) as (a' & E & Hd).
  - unfold done, sample_index. cbn [Nat.mul Nat.add seq map app]. rewrite Nat.sub_0_r. reflexivity.
  - intros y b Hy Hb. destruct (loop_rule bytes (fun x l => done m total (sample_index m y x 0) l)
      (fun x r => loop (length (comps m)) 0 (fun k r => put_sample m (N.of_nat y) (N.of_nat x) k r) r) (N.to_nat (x1 m)) 0 b Hb) as (b' & E & Hd).
    + intros x c Hx Hc. destruct (loop_rule bytes (fun k l => done m total (sample_index m y x k) l)
        (fun k r => put_sample m (N.of_nat y) (N.of_nat x) k r) (length (comps m)) 0 c Hc) as (c' & E & Hd).
      * intros k d Hk Hd. destruct (put_one m y x k d Hs) as (d' & E & Hd'); [lia|lia|lia|apply H; lia|exact Hd|]. exists d'. split; [exact E|].
        replace (sample_index m y x (S k)) with (S (sample_index m y x k)) by (unfold sample_index; lia). exact Hd'.
      * exists c'. split; [exact E|]. replace (sample_index m y (S x) 0) with (sample_index m y x (0 + length (comps m))) by (unfold sample_index; lia). exact Hd.
    + exists b'. split; [exact E|]. replace (sample_index m (S y) 0 0) with (sample_index m y (0 + N.to_nat (x1 m)) 0) by (unfold sample_index; lia). exact Hd.
  - refine (eq_trans E _). f_equal. rewrite Hd. replace (sample_index m (0 + N.to_nat (y1 m)) 0 0) with total; [rewrite Nat.sub_diag; cbn [repeat]; apply app_nil_r|].
    unfold sample_index, total, image_samples. rewrite !N2Nat.inj_mul, Nat2N.id. lia.
Qed.
Lemma values_interleaved : forall m,
  (forall y x k, y < N.to_nat (y1 m) -> x < N.to_nat (x1 m) -> k < length (comps m) -> exists v, sample m y x k = Some v /\ eight_bits v) ->
  interleaved m (map (sample_value m) (seq 0 (N.to_nat (image_samples m)))).
Proof.
  intros m H. split; [rewrite map_length, seq_length; reflexivity|]. intros y x k Hy Hx Hk. destruct (H y x k Hy Hx Hk) as (v & Ev & Hv). exists (Z.to_N v). unfold eight_bits in Hv. rewrite Z2N.id by lia. split; [exact Ev|].
  destruct (sample_index_bound m y x k Hy Hx Hk) as (B1 & _). fold (sample_index m y x k). set (i := sample_index m y x k) in *.
  rewrite nth_error_map. assert (En : nth_error (seq 0 (N.to_nat (image_samples m))) i = Some i).
  { rewrite (nth_error_nth' _ 0) by (rewrite seq_length; exact B1). rewrite seq_nth by exact B1. reflexivity. }
  rewrite En. cbn [option_map]. f_equal. unfold sample_value. destruct (index_div m y x k Hk) as (D1 & D2). fold i in D1, D2. rewrite D1, D2. unfold sample in Ev. destruct (nth_error (comps m) k); [|discriminate]. rewrite Ev. reflexivity.
Qed.
(** nothing throws as long as the samples are bytes *)
Lemma put_samples_calm : forall m l, Forall (fun c => Forall eight_bits (c_data c)) (comps m) -> calm (fun _ => True) (put_samples m l).
Proof.
  intros m l H. unfold put_samples. apply loop_calm; [exact I|]. intros y b _ _. apply loop_calm; [exact I|]. intros x c _ _. apply loop_calm; [exact I|]. intros k d _ _.
  unfold put_sample. destruct (nth_error (comps m) k) as [co|] eqn:Ec; [|left; reflexivity]. destruct (nth_error (c_data co) _) as [v|] eqn:Ev; [|left; reflexivity].
  rewrite byte_in; [|apply nth_error_In in Ec; apply nth_error_In in Ev; rewrite Forall_forall in H; specialize (H _ Ec); rewrite Forall_forall in H; exact (H _ Ev)].
  cbn [rbind]. unfold set_at. destruct (_ <? _)%N; [right; eexists; split; [reflexivity|exact I]|left; reflexivity].
Qed.

(** *** openjpeg reading *)
Lemma opj_read_hangs : forall fuel size stream want got, (N.of_nat (length stream) < want)%N -> opj_read fuel stream_read size stream want got = None.
Proof.
  induction fuel as [|f IH]; intros size stream want got H; [reflexivity|]. cbn [opj_read stream_read]. set (n := if negb (want <? size)%N then want else size).
  unfold size_of. rewrite firstn_length. destruct (N.ltb_spec (N.of_nat (Nat.min (N.to_nat n) (length stream))) want) as [Hl|Hl]; [|lia]. apply IH. rewrite skipn_length. lia.
Qed.
Lemma opj_read_gets : forall fuel size stream want got, (0 < want <= N.of_nat (length stream))%N ->
  exists buffered stream', opj_read (S fuel) stream_read size stream want got = Some (got ++ firstn (N.to_nat want) stream, buffered, stream') /\ buffered ++ stream' = skipn (N.to_nat want) stream.
Proof.
  intros fuel size stream want got H. cbn [opj_read stream_read]. set (n := if negb (want <? size)%N then want else size). assert (Hn : (want <= n)%N) by (unfold n; destruct (N.ltb_spec want size); cbn [negb]; lia).
  unfold size_of. rewrite firstn_length. destruct (N.ltb_spec (N.of_nat (Nat.min (N.to_nat n) (length stream))) want) as [Hl|Hl]; [lia|].
  eexists. eexists. split; [rewrite firstn_firstn, Nat.min_l by lia; reflexivity|].
  rewrite <- (firstn_skipn (N.to_nat n) stream) at 3. rewrite skipn_app. f_equal. rewrite firstn_length. replace (N.to_nat want - Nat.min (N.to_nat n) (length stream)) with 0 by lia. reflexivity.
Qed.

Local Open Scope nat_scope.
Lemma encode_params : forall jpeg start (write_line : jpeg -> bytes -> jpeg * bytes) finish params attributes w h c n j out lines rest,
  image_params params attributes = Ok (Some (Z.of_N w), Some (Z.of_N h), Some c) -> (w < 2 ^ 32)%N -> (h < 2 ^ 32)%N -> components_of c = Some n -> start w h n = Some (j, out) ->
  List.length lines = N.to_nat h -> Forall (fun l => List.length l = N.to_nat (w * n)) lines ->
  let data := concat lines ++ rest in
  dct_encode jpeg start write_line finish params attributes data (Z.of_nat (List.length data)) = Ok (out ++ bytes_of_lines write_line finish j lines).
Proof.
  intros jpeg start write_line finish params attributes w h c n j out lines rest Ep Hw Hh Ec Es El Hf data. unfold dct_encode. rewrite Ep. cbn [rbind needed].
  change (2 ^ 32)%N with 4294967296%N in *.
  assert (C : forall v, (v < 4294967296)%N -> safe_convert uint32_t int64_t (Z.of_N v) = Ok (Z.of_N v)).
  { intros v Hv. unfold safe_convert, is_in_range, is_in_range_same. cbn [sgn uint32_t int64_t Bool.eqb bits]. destruct (Z.ltb_spec (Z.of_N v) 0); [lia|]. change (ity_eqb uint32_t {| sgn := false; bits := 64 |}) with false. cbv iota.
    change (tmin uint32_t) with 0%Z. change (tmax uint32_t) with 4294967295%Z. destruct (Z.leb_spec 0 (Z.of_N v)); [|lia]. destruct (Z.leb_spec (Z.of_N v) 4294967295); [|lia]. cbn [andb]. f_equal. unfold wrap. cbn [sgn bits uint32_t andb]. change (2 ^ Z.of_N 32)%Z with 4294967296%Z. apply Z.mod_small. lia. }
  rewrite !C by assumption. cbn [rbind]. rewrite Ec. cbn [needed rbind]. rewrite !N2Z.id, Es. cbn [needed rbind].
  assert (Hn : (n <= 4)%N) by (unfold components_of in Ec; repeat match type of Ec with (if ?b then _ else _) = _ => destruct b; [injection Ec as <-; lia|] end; discriminate).
  assert (M : safe_multiply int64_t uint32_t (Z.of_N w) (Z.of_N n) = Ok (Z.of_N (w * n))).
  { unfold safe_multiply. destruct (Z.eqb_spec (Z.of_N w) 0) as [E0|E0]; [cbn [orb]; replace (w * n)%N with 0%N by lia; reflexivity|]. destruct (Z.eqb_spec (Z.of_N n) 0) as [E1|E1]; [cbn [orb]; replace (w * n)%N with 0%N by lia; reflexivity|]. cbn [orb].
    assert (C2 : forall v, (v < 4294967296)%N -> safe_convert int64_t uint32_t (Z.of_N v) = Ok (Z.of_N v)).
    { intros v Hv. unfold safe_convert, is_in_range. cbn [sgn uint32_t int64_t Bool.eqb bits]. change (tmax int64_t) with 9223372036854775807%Z. destruct (Z.gtb_spec 9223372036854775807 (Z.of_N v)); [|lia]. f_equal. unfold wrap. cbn [sgn bits int64_t andb]. change (2 ^ Z.of_N 64)%Z with 18446744073709551616%Z. change (2 ^ (Z.of_N 64 - 1))%Z with 9223372036854775808%Z. rewrite Z.mod_small by lia. destruct (Z.leb_spec 9223372036854775808 (Z.of_N v)); [lia|reflexivity]. }
    rewrite !C2 by lia. cbn [rbind]. change (tmax int64_t) with 9223372036854775807%Z.
    assert (Hq : (Z.of_N w <= Z.quot 9223372036854775807 (Z.of_N n))%Z) by (rewrite Z.quot_div_nonneg by lia; apply Z.div_le_lower_bound; nia).
    destruct (Z.ltb_spec (Z.quot 9223372036854775807 (Z.of_N n)) (Z.of_N w)); [lia|]. change (promote int64_t) with int64_t. unfold arith. change (sgn int64_t) with true. cbv iota. change (tmin int64_t) with (-9223372036854775808)%Z. change (tmax int64_t) with 9223372036854775807%Z.
    assert (Hb : (0 <= Z.of_N w * Z.of_N n <= 17179869180)%Z) by nia. destruct (Z.leb_spec (-9223372036854775808) (Z.of_N w * Z.of_N n)); [|lia]. destruct (Z.leb_spec (Z.of_N w * Z.of_N n) 9223372036854775807); [|lia]. cbn [andb rbind]. f_equal.
    unfold wrap. cbn [sgn bits int64_t andb]. change (2 ^ Z.of_N 64)%Z with 18446744073709551616%Z. change (2 ^ (Z.of_N 64 - 1))%Z with 9223372036854775808%Z. rewrite Z.mod_small by lia. destruct (Z.leb_spec 9223372036854775808 (Z.of_N w * Z.of_N n)); lia. }
  rewrite M. cbn [rbind]. rewrite N2Z.id. replace (Z.to_nat (Z.of_N h)) with (List.length lines) by lia.
  destruct (compress_lines_ok jpeg write_line finish lines (w * n) rest (Z.of_nat (List.length data)) j (fold_left emit out init_destination) Hf) as (j' & d' & E1 & E2).
  - unfold data. rewrite app_length. assert (Hl : Z.of_nat (List.length (concat lines)) = (Z.of_N (w * n) * Z.of_nat (List.length lines))%Z).
    { clear -Hf. induction Hf as [|l r Hl Hr IH]; [cbn; lia|]. cbn [concat List.length]. rewrite app_length. lia. }
    lia.
  - fold data in E1. rewrite E1. cbn [rbind]. f_equal. change (stored (fold_left emit (finish j') d') = out ++ bytes_of_lines write_line finish j lines). rewrite emit_stored, E2, emit_stored. reflexivity.
Qed.

Lemma described_params : forall params attributes w h n, described params (at_find image_metadata attributes) w h n ->
  exists c, image_params params attributes = Ok (Some (Z.of_N w), Some (Z.of_N h), Some c) /\ components_of c = Some n.
Proof.
  intros params attributes w h n H. unfold image_params.
  assert (I : forall key, sm_find key params = None \/ (exists v, sm_find key params = Some (OInt v)) ->
            optional (sm_contains key params) (find_integer key params) = Ok (match sm_find key params with Some (OInt v) => Some v | _ => None end)).
  { intros key [E|(v & E)]; unfold sm_contains, find_integer; rewrite E; reflexivity. }
  inversion H as [w0 h0 space n0 E1 E2 E3 Hs Ea|m w0 h0 n0 E1 E2 E3 Ew Eh Hc Ea]; subst.
  - rewrite (I (str "Width")), (I (str "Height")) by (right; eexists; eassumption). rewrite E1, E2. cbn [rbind]. unfold find_color. rewrite E3. cbn [rbind].
    exists space. split; [reflexivity|]. destruct Hs; reflexivity.
  - rewrite (I (str "Width")), (I (str "Height")) by assumption. cbn [rbind]. unfold find_color.
    destruct E3 as [E3|(v & E3)]; rewrite E3; cbn [rbind]; rewrite Ew, Eh; destruct Hc; cbn [color_name]; eexists; (split; [reflexivity|reflexivity]).
Qed.

(** C68 (and C06): real numbers. *)
From Coq Require Import List NArith ZArith QArith Qabs Lqa Bool Lia String.
From Verif.Model Require Import Base Char Numbers Object Token Parser Reals.
From Verif.Spec Require Import Grammar Reals.
From Verif.Proof Require Import Tac Token FileWrite ParserAny Writer Reals.
Import ListNotations.
Local Open Scope N_scope.

Lemma read_text : forall s neg m p, object_text s (OReal neg m p) ->
  read_real s = do v <- stod neg m p;; Ok {| value := v; precision := p |}.
Proof.
  intros s neg m p H. inversion H as [| | | |s' neg' ip fp Hs Hne Hi Hf|d e f| | | | |]; subst. unfold read_real.
  rewrite (create_real_text s' neg ip fp) by assumption. cbn [rbind]. reflexivity.
Qed.
Lemma text_real : forall sh r, 1 <= precision r ->
  object_text (real_string sh r) (OReal (r_neg (value r)) (fixed (precision r) (value r)) (precision r)).
Proof. intros sh r H. unfold real_string. replace (0 <? precision r) with true by lia. apply real_text. exact H. Qed.
Lemma text_unique : forall s neg m p neg' m' p', object_text s (OReal neg m p) -> object_text s (OReal neg' m' p') -> m = m'.
Proof.
  intros s neg m p neg' m' p' H H'. assert (A : create_real s = Ok (OReal neg m p)).
  { inversion H; subst. apply create_real_text; assumption. }
  assert (B : create_real s = Ok (OReal neg' m' p')).
  { inversion H'; subst. apply create_real_text; assumption. }
  rewrite A in B. injection B as _ E _. exact E.
Qed.

(** A real number of up to 15 digits (less than 2^52 without its point) and 1 to 307 places is read, is written with the very same digits, and
    reads again as the very same double. *)
Theorem C68_reals_survive_partial : forall shortest s neg m p, object_text s (OReal neg m p) -> 1 <= p <= 307 -> m < 2 ^ 52 ->
  exists r, read_real s = Ok r /\ object_text (real_string shortest r) (OReal neg m p) /\ read_real (real_string shortest r) = Ok r.
Proof.
  intros sh s neg m p H Hp Hm. destruct (stod_back neg m p Hm ltac:(lia)) as (v & V & N & F & _).
  exists {| value := v; precision := p |}. assert (R := read_text s neg m p H). rewrite V in R. cbn [rbind] in R. split; [exact R|].
  assert (T := text_real sh {| value := v; precision := p |} ltac:(cbn; lia)). cbn [value precision] in T. rewrite N, F in T. split; [exact T|].
  rewrite (read_text _ neg m p T), V. reflexivity.
Qed.
(** What is read is a double, and no double is nearer to the number in the text. *)
Theorem C68_read_nearest : forall s neg m p r, object_text s (OReal neg m p) -> read_real s = Ok r ->
  precision r = p /\ binary64 (value r) /\
  forall w, binary64 w -> (Qabs (decimal neg m p - worth (value r)) <= Qabs (decimal neg m p - worth w))%Q.
Proof.
  intros s neg m p r H R. rewrite (read_text s neg m p H) in R. destruct (stod neg m p) as [v| | |] eqn:V; try discriminate. cbn [rbind] in R.
  apply Ok_inj in R. subst r. cbn [value precision]. destruct (stod_nearest neg m p v V) as (_ & B & N). auto.
Qed.
(** A double is written with as many places as asked for, off by at most half a unit of the last one. *)
Theorem C68_written_value : forall shortest v p, 1 <= p ->
  exists m, object_text (real_string shortest {| value := v; precision := p |}) (OReal (r_neg v) m p) /\
    (Qabs (decimal (r_neg v) m p - worth v) <= half_unit p)%Q.
Proof.
  intros sh v p Hp. exists (fixed p v). split; [exact (text_real sh {| value := v; precision := p |} Hp)|].
  unfold decimal, worth. rewrite with_sign_abs. assert (F := fixed_half p v). unfold half_unit. fold (nq (fixed p v)) (tn p) (nq (r_q v)) (tw (r_e v)).
  fold (size v). assert (T := tn_pos p). set (D := tn p) in *. clearbody D. set (z := size v) in *. clearbody z.
  assert (X : (nq (fixed p v) == nq (fixed p v) / D * D)%Q) by (field; lra). set (y := (nq (fixed p v) / D)%Q) in *. clearbody y. rewrite X in F.
  assert (H : ((1 # 2) == (1 # 2) / D * D)%Q) by (field; lra). set (h := ((1 # 2) / D)%Q) in *. clearbody h. rewrite H in F.
  apply Qabs_case; intros; nra.
Qed.
(** With enough places (10^p above 2^(1-e) for the exponent [e] of the double) a double is written and reads back as the same number. *)
Theorem C68_enough_places_partial : forall shortest v p, normal v -> 1 <= p -> ((2 # 1) ^ (1 - r_e v) < (10 # 1) ^ Z.of_N p)%Q ->
  exists r, read_real (real_string shortest {| value := v; precision := p |}) = Ok r /\ precision r = p /\ (worth (value r) == worth v)%Q.
Proof.
  intros sh v p Nv Hp H. assert (T := text_real sh {| value := v; precision := p |} Hp). cbn [value precision] in T.
  destruct (enough_digits p v Nv) as (v' & V & N & S).
  { right. fold (tn p) in H. change ((2 # 1) ^ (1 - r_e v))%Q with (tw (1 - r_e v)) in H.
    assert (I : (tw (1 - r_e v) * tw (r_e v) == 2 # 1)%Q) by (rewrite <- tw_add; replace (1 - r_e v + r_e v)%Z with 1%Z by lia; reflexivity).
    assert (U := tw_pos (r_e v)). rewrite <- I. nra. }
  exists {| value := v'; precision := p |}. rewrite (read_text _ _ _ _ T), V. cbn [rbind value precision]. repeat split.
  unfold worth. rewrite N. apply with_sign_comp. exact S.
Qed.

(** Setting a value keeps the number of places of the old one: any number below half a unit of the last place is written as zero. *)
Theorem C68_set_value_refuted : forall shortest r v, 1 <= precision r ->
  (0 < Qabs (worth v))%Q -> (Qabs (worth v) < half_unit (precision r))%Q ->
  object_text (real_string shortest (set_real v r)) (OReal (r_neg v) 0 (precision r)).
Proof.
  intros sh r v Hp _ H. assert (T := text_real sh (set_real v r) Hp). cbn [set_real value precision] in T.
  replace 0 with (fixed (precision r) v); [exact T|]. apply fixed_unique.
  assert (S : (Qabs (worth v) == size v)%Q).
  { unfold worth. fold (nq (r_q v)) (tw (r_e v)). fold (size v). assert (P : (0 <= size v)%Q) by (unfold size; assert (A := nq_nonneg (r_q v)); assert (B := tw_pos (r_e v)); nra).
    destruct (r_neg v); cbn [with_sign]; [rewrite Qabs_opp|]; apply Qabs_pos; exact P. }
  rewrite S in H. unfold half_unit in H. fold (tn (precision r)) in H. assert (U := tn_pos (precision r)). set (D := tn (precision r)) in *. clearbody D.
  assert (P : (0 <= size v)%Q) by (unfold size; assert (A := nq_nonneg (r_q v)); assert (B := tw_pos (r_e v)); nra).
  set (z := size v) in *. clearbody z. change (nq 0) with 0%Q.
  assert (X : ((1 # 2) == (1 # 2) / D * D)%Q) by (field; lra). set (h := ((1 # 2) / D)%Q) in *. clearbody h. rewrite X. rewrite Qabs_pos by nra. nra.
Qed.
(** Every odd number above 2^53 is written as another number than the one that was read. *)
Theorem C68_many_digits_refuted : forall shortest s neg n p, N.odd n = true -> 2 ^ 53 < n < 2 ^ 1023 -> 1 <= p ->
  object_text s (OReal neg (n * 10 ^ p) p) ->
  exists r, read_real s = Ok r /\ ~ object_text (real_string shortest r) (OReal neg (n * 10 ^ p) p).
Proof.
  intros sh s neg n p Ho Hn Hp H. destruct (odd_lost neg n p Ho Hn) as (v & V & N & F).
  exists {| value := v; precision := p |}. assert (R := read_text s _ _ _ H). rewrite V in R. split; [exact R|].
  intros T'. assert (T := text_real sh {| value := v; precision := p |} Hp). exact (F (text_unique _ _ _ _ _ _ _ T T')).
Qed.
(** Numbers that are too small or too large for a double make reading fail, not round. *)
Theorem C68_out_of_range_refuted : forall s neg m p, object_text s (OReal neg m p) ->
  (0 < m /\ m * 2 ^ 1075 < 10 ^ p) \/ 2 ^ 1024 * 10 ^ p <= m -> read_real s = Throw EStdRange.
Proof.
  intros s neg m p H C. rewrite (read_text s neg m p H). destruct C as [[C1 C2]|C]; [rewrite tiny|rewrite huge]; auto.
Qed.
(** A number without a number of places and with an exponent is written in a form the tokenizer takes for the digits alone, followed by other
    text. *)
Theorem C68_exponent_refuted : forall d shortest v c t x rest, Forall decimal_digit (c :: t) ->
  shortest v = scientific (c :: t) x ->
  exists kind more, read_token_skip d (real_string shortest {| value := v; precision := 0 |} ++ rest) =
    Ok ((kind, c :: match t with [] => [] | _ => 46 :: t end), 101 :: more).
Proof.
  intros d sh v c t x rest Hd E. unfold real_string. cbn [value precision]. change (0 <? 0) with false. cbv iota. rewrite E.
  assert (Hc : decimal_digit c) by (inversion Hd; assumption). assert (Ht : Forall decimal_digit t) by (inversion Hd; assumption).
  cbn [scientific]. set (tail := ([101; if (x <? 0)%Z then 45 else 43] ++ _)).
  assert (D1 := decimal_numeric [c] ltac:(constructor; [exact Hc|constructor])). cbn [forallb] in D1.
  assert (Hn : is_numeric c = true) by (destruct (is_numeric c); [reflexivity|discriminate]).
  destruct (number_char c) as (Hreg & _); [left; rewrite Hn; reflexivity|].
  assert (H46 : (c =? 46) = false) by (unfold decimal_digit in Hc; lia).
  destruct t as [|c2 t].
  - exists TyInt. exists ([if (x <? 0)%Z then 45 else 43] ++ (let n := to_string_N (Z.abs_N x) in match n with [_] => 48 :: n | _ => n end) ++ rest).
    apply skip_of_read; [|discriminate]. cbn [app]. rewrite regular_read by exact Hreg. unfold read_unknown. rewrite H46, Hn. cbn [orb].
    reflexivity.
  - exists TyReal. exists ([if (x <? 0)%Z then 45 else 43] ++ (let n := to_string_N (Z.abs_N x) in match n with [_] => 48 :: n | _ => n end) ++ rest).
    apply skip_of_read; [|discriminate].
    assert (SP : span is_numeric ((c2 :: t) ++ tail ++ rest) = (c2 :: t, tail ++ rest)) by (apply span_app; [apply decimal_numeric; exact Ht|reflexivity]).
    change ((c :: (46 :: c2 :: t) ++ tail) ++ rest) with (c :: 46 :: ((c2 :: t) ++ tail) ++ rest). rewrite <- app_assoc.
    rewrite regular_read by exact Hreg. unfold read_unknown. rewrite H46, Hn. cbn [orb].
    change (span is_numeric (46 :: (c2 :: t) ++ tail ++ rest)) with (@nil N, 46 :: (c2 :: t) ++ tail ++ rest). cbv iota beta. rewrite SP. reflexivity.
Qed.

(** C06: a real number as an integer is the number without its fraction; it is refused when it is beyond 2^63 in size. *)
Theorem C06_real_as_integer_partial : forall v, ~ (worth v == inject_Z (2 ^ 63))%Q ->
  (exists z, real_to_big_int v = Ok z /\ (- 2 ^ 63 <= z < 2 ^ 63)%Z /\
    (Qabs (inject_Z z) <= Qabs (worth v) /\ Qabs (worth v) < Qabs (inject_Z z) + 1)%Q /\ (0 <= inject_Z z * worth v)%Q) \/
  (real_to_big_int v = Throw EConversion /\ (inject_Z (2 ^ 63) < Qabs (worth v))%Q).
Proof.
  intros v H. unfold real_to_big_int. assert (F := size_floor v). cbv zeta in F.
  assert (P : (0 <= size v)%Q) by (unfold size; assert (A := nq_nonneg (r_q v)); assert (B := tw_pos (r_e v)); nra).
  assert (S : (Qabs (worth v) == size v)%Q).
  { unfold worth. fold (nq (r_q v)) (tw (r_e v)). fold (size v). destruct (r_neg v); cbn [with_sign]; [rewrite Qabs_opp|]; apply Qabs_pos; exact P. }
  assert (I63 : (inject_Z (2 ^ 63) == tw 63)%Q) by reflexivity.
  destruct (at_most_2_63 v) eqn:M.
  - apply at_most_spec in M. left. exists (truncate v).
    unfold truncate in *. set (a := if (r_e v <? 0)%Z then r_q v / 2 ^ Z.to_N (- r_e v) else r_q v * 2 ^ Z.to_N (r_e v)) in *.
    assert (A63 : (Z.of_N a <= 2 ^ 63)%Z).
    { assert (X : (inject_Z (Z.of_N a) <= inject_Z (2 ^ 63))%Q); [|rewrite <- Zle_Qle in X; exact X]. rewrite I63. fold (nq a). lra. }
    assert (A0 := nq_nonneg a).
    assert (Ab : (Qabs (inject_Z (if r_neg v then - Z.of_N a else Z.of_N a)%Z) == nq a)%Q).
    { destruct (r_neg v); [rewrite inject_Z_opp, Qabs_opp|]; apply Qabs_pos; exact A0. }
    assert (W : (worth v == with_sign (r_neg v) (size v))%Q) by reflexivity.
    assert (Lt : ((if r_neg v then - Z.of_N a else Z.of_N a) < 2 ^ 63)%Z).
    { destruct (r_neg v) eqn:Ng; [lia|]. destruct (Z.eq_dec (Z.of_N a) (2 ^ 63)) as [E|E]; [|lia]. exfalso. apply H. rewrite W. cbn [with_sign].
      assert (X : (nq a == tw 63)%Q) by (unfold nq; rewrite E; exact I63). rewrite I63. lra. }
    replace ((if r_neg v then - Z.of_N a else Z.of_N a) <? 2 ^ 63)%Z with true by lia. split; [reflexivity|].
    split; [destruct (r_neg v); lia|]. split.
    + rewrite Ab, S. exact F.
    + rewrite W. destruct (r_neg v); cbn [with_sign]; [rewrite inject_Z_opp|]; fold (nq a); nra.
  - right. split; [reflexivity|]. rewrite S, I63. apply Qnot_le_lt. intros L. apply at_most_spec in L. congruence.
Qed.
(** C06: the real number 2^63 passes the check and is converted although no integer of 64 bits is equal to it, which is undefined. *)
Theorem C06_real_as_integer_refuted : forall v, (worth v == inject_Z (2 ^ 63))%Q -> real_to_big_int v = Undef.
Proof.
  intros v H. unfold real_to_big_int. assert (F := size_floor v). cbv zeta in F.
  assert (P : (0 <= size v)%Q) by (unfold size; assert (A := nq_nonneg (r_q v)); assert (B := tw_pos (r_e v)); nra).
  assert (W : (worth v == with_sign (r_neg v) (size v))%Q) by reflexivity. rewrite W in H. assert (I63 : (inject_Z (2 ^ 63) == tw 63)%Q) by reflexivity.
  rewrite I63 in H. assert (T := tw_pos 63).
  destruct (r_neg v) eqn:Ng; cbn [with_sign] in H; [exfalso; lra|].
  replace (at_most_2_63 v) with true by (symmetry; apply at_most_spec; lra).
  unfold truncate. rewrite Ng. set (a := if (r_e v <? 0)%Z then r_q v / 2 ^ Z.to_N (- r_e v) else r_q v * 2 ^ Z.to_N (r_e v)) in *.
  replace (Z.of_N a <? 2 ^ 63)%Z with false; [reflexivity|]. symmetry. apply Z.ltb_ge.
  assert (X : (inject_Z (2 ^ 63) < inject_Z (Z.of_N a + 1))%Q); [|rewrite <- Zlt_Qlt in X; lia].
  rewrite I63, inject_Z_plus. change (inject_Z 1) with 1%Q. fold (nq a). lra.
Qed.

(** "3.14" and "-.002" are kept; 0.1 is the double 3602879701896397 * 2^-55 and comes back from 17 places; 1.5 set to 0.04 is written as "0.0";
    9007199254740993.0 is written as 9007199254740992.0; a real 2^63. *)
Definition c68_none (v : double) : bytes := [].
Example C68_case :
  (do r <- read_real (str "3.14");; Ok (real_string c68_none r)) = Ok (str "3.14") /\
  (do r <- read_real (str "-.002");; Ok (real_string c68_none r)) = Ok (str "-0.002") /\
  (do r <- read_real (str "0.1");; Ok (real_string c68_none {| value := value r; precision := 20 |})) = Ok (str "0.10000000000000000555") /\
  (do r <- read_real (str "1.5");; do s <- read_real (str "0.04");; Ok (real_string c68_none (set_real (value s) r))) = Ok (str "0.0") /\
  (do r <- read_real (str "9007199254740993.0");; Ok (real_string c68_none r)) = Ok (str "9007199254740992.0") /\
  scientific [49] 16 = str "1e+16" /\ scientific [49; 53] (-5) = str "1.5e-05" /\
  object_text (str "3.14") (OReal false 314 2).
Proof.
  repeat (split; [vm_compute; reflexivity|]). exact (ot_real [] false [51] [49; 52] st_none ltac:(discriminate)
    ltac:(repeat constructor; discriminate) ltac:(repeat constructor; discriminate)).
Qed.
Definition c68_tenth : double := {| r_neg := false; r_q := 7205759403792794; r_e := -56 |}.
Example C68_tenth_case : read_real (str "0.1") = Ok {| value := c68_tenth; precision := 1 |} /\ normal c68_tenth /\
  ((2 # 1) ^ (1 - r_e c68_tenth) < (10 # 1) ^ Z.of_N 18)%Q /\ (0 < Qabs (worth c68_tenth))%Q /\ (Qabs (worth c68_tenth) < half_unit 0)%Q.
Proof. vm_compute. repeat split; discriminate. Qed.
Example C06_real_case : real_to_big_int {| r_neg := true; r_q := 5; r_e := -1 |} = Ok (-2)%Z /\
  (worth {| r_neg := false; r_q := 1; r_e := 63 |} == inject_Z (2 ^ 63))%Q /\
  (do r <- read_real (str "9223372036854775808.0");; real_to_big_int (value r)) = Undef.
Proof. vm_compute. repeat split. Qed.

Print Assumptions C68_reals_survive_partial.
Print Assumptions C68_read_nearest.
Print Assumptions C68_written_value.
Print Assumptions C68_enough_places_partial.
Print Assumptions C68_set_value_refuted.
Print Assumptions C68_many_digits_refuted.
Print Assumptions C68_out_of_range_refuted.
Print Assumptions C68_exponent_refuted.
Print Assumptions C06_real_as_integer_partial.
Print Assumptions C06_real_as_integer_refuted.

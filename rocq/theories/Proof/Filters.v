(** Proofs about the stream filters. *)
From Coq Require Import List NArith ZArith Bool Lia.
From Verif.Model Require Import Base Char Numbers Arith Filters.
From Verif.Spec Require Import Strings Arith Filters.
From Verif.Proof Require Import Tac Numbers Strings Arith.
Import ListNotations.
Local Open Scope N_scope.

(** ** ASCII85 *)
Lemma white_eq : forall c, negb (existsb (N.eqb c) pdf_white) = negb (is_white c).
Proof. intros c. f_equal. unfold is_white, pdf_white. cbn [existsb]. destruct (c =? 0), (c =? 9), (c =? 10), (c =? 12), (c =? 13), (c =? 32); reflexivity. Qed.

Lemma without_white_cons : forall c s, without_white (c :: s) = if is_white c then without_white s else c :: without_white s.
Proof. intros c s. unfold without_white. cbn [filter]. rewrite white_eq. destruct (is_white c); reflexivity. Qed.

(** the loop on text without white space *)
Fixpoint a85_clean (strict : bool) (s : bytes) (seq : list N) : res bytes :=
  match s with
  | [] => a85_final strict seq
  | ch :: t =>
      if (ch =? 122) && (match seq with [] => true | _ => false end) then
        do r <- a85_clean strict t seq;; Ok (0 :: 0 :: 0 :: 0 :: r)
      else if (ch <? 33) || (117 <? ch) then Throw EGeneral
      else
        let seq' := seq ++ [ch - 33] in
        if Nat.eqb (length seq) 4 then
          do v <- int_op strict (base85 seq');;
          do r <- a85_clean strict t [];;
          Ok (int_byte v 24 :: int_byte v 16 :: int_byte v 8 :: int_byte v 0 :: r)
        else a85_clean strict t seq'
  end.

Lemma a85_loop_clean : forall strict body n tail seq, ~ In 126 (without_white body) ->
  (n = length body \/ (length body < n)%nat /\ exists r, tail = 126 :: 62 :: r) ->
  a85_loop strict n (body ++ tail) seq = a85_clean strict (without_white body) seq.
Proof.
  intros strict. induction body as [|ch body IH]; intros n tail seq Hni Hn.
  - cbn [app length] in *. destruct Hn as [->|[L [r ->]]]; [reflexivity|].
    destruct n as [|n]; [lia|]. reflexivity.
  - cbn [app length] in *. destruct n as [|n]; [lia|]. cbn [a85_loop].
    assert (Hn' : n = length body \/ (length body < n)%nat /\ exists r, tail = 126 :: 62 :: r) by (destruct Hn as [H|[H H']]; [left|right]; auto; split; auto; lia).
    rewrite without_white_cons in *.
    destruct (is_white ch) eqn:W.
    + replace (ch =? 126) with false.
      * cbn [andb]. apply IH; assumption.
      * symmetry. apply N.eqb_neq. intros ->. discriminate W.
    + assert (Hn126 : ch <> 126) by (intros ->; apply Hni; left; reflexivity).
      replace (ch =? 126) with false by lia. cbn [andb a85_clean].
      assert (Hni' : ~ In 126 (without_white body)) by (intro; apply Hni; right; assumption).
      rewrite !(IH n tail) by assumption. reflexivity.
Qed.

Lemma int_byte_of : forall strict V v, (0 <= V < 2 ^ 32)%Z -> int_op strict V = Ok v ->
  forall k, (0 <= k <= 24)%Z -> int_byte v k = Z.to_N ((V / 2 ^ k) mod 256).
Proof.
  intros strict V v HV H k Hk. unfold int_op, int32_min, int32_max in H. cif_in H; [injection H as <-; reflexivity|].
  destruct strict; [discriminate|]. injection H as <-.
  assert (W : wrap int32_t V = (V - 2 ^ 32)%Z).
  { unfold wrap. cbn [int32_t sgn bits]. change (Z.of_N 32) with 32%Z. rewrite Z.mod_small by lia. cbn [andb]. cif; lia. }
  rewrite W. unfold int_byte. f_equal.
  replace (V - 2 ^ 32)%Z with (V + (- 2 ^ (24 - k) * 256) * 2 ^ k)%Z.
  - rewrite Z.div_add by (apply Z.pow_nonzero; lia). apply Z.mod_add. lia.
  - replace (2 ^ 32)%Z with (2 ^ (24 - k) * 256 * 2 ^ k)%Z; [lia|].
    change 256%Z with (2 ^ 8)%Z. rewrite <- !Z.pow_add_r by lia. f_equal. lia.
Qed.

Lemma int_op_total : forall V, exists v, int_op false V = Ok v.
Proof. intros V. unfold int_op. cif; eauto. Qed.
Lemma int_op_small : forall strict V, (0 <= V < 2 ^ 31)%Z -> exists v, int_op strict V = Ok v.
Proof. intros strict V H. unfold int_op, int32_min, int32_max. cif; [eauto|lia]. Qed.

Lemma be4 : forall w x y z, big_endian [w; x; y; z] = w * 16777216 + x * 65536 + y * 256 + z.
Proof. intros. cbn [big_endian length]. change (256 ^ N.of_nat 3) with 16777216. change (256 ^ N.of_nat 2) with 65536.
  change (256 ^ N.of_nat 1) with 256. change (256 ^ N.of_nat 0) with 1. lia. Qed.

Lemma byte_k : forall v u x r m, (0 < m)%Z -> (v = (u * 256 + x) * m + r)%Z -> (0 <= x < 256)%Z -> (0 <= r < m)%Z ->
  ((v / m) mod 256 = x)%Z.
Proof.
  intros v u x r m Hm E Hx Hr. replace (v / m)%Z with (u * 256 + x)%Z by (apply (Z.div_unique v m _ r); lia).
  rewrite Z.add_comm, Z.mod_add by lia. apply Z.mod_small; lia.
Qed.

(** either wrapping arithmetic, or no overflow *)
Definition fits (strict : bool) (v : list N) : Prop := strict = true -> groups_below_2_31 v.

Lemma int_op_fits : forall strict V, (strict = true -> (0 <= V < 2 ^ 31)%Z) -> exists v, int_op strict V = Ok v.
Proof. intros [|] V H; [apply int_op_small; auto|apply int_op_total]. Qed.

Ltac a85_step :=
  cbn [a85_clean];
  match goal with |- context [(?c =? 122) && ?b] => replace ((c =? 122) && b) with false by (symmetry; apply andb_false_iff; lia || (right; reflexivity)) end;
  match goal with |- context [(?c <? 33) || ?b] => replace ((c <? 33) || b) with false by (symmetry; apply orb_false_iff; split; lia) end;
  cbn [length app Nat.eqb].

Lemma a85_clean_text : forall strict txt v, ascii85_text txt v -> fits strict v -> a85_clean strict txt [] = Ok v.
Proof.
  intros strict txt v H. induction H as [|t v H IH|a b c d e w x y z t v B D H IH|a b c d e w B D|a b c d e w x B D|a b c d e w x y B D]; intros F.
  - reflexivity.
  - cbn [a85_clean]. change (122 =? 122) with true. cbn [andb]. rewrite IH; [reflexivity|]. intro S. apply (F S).
  - destruct D as (Da & Db & Dc & Dd & De & E). destruct B as (Bw & Bx & By & Bz). rewrite be4 in E.
    do 5 a85_step.
    assert (V : base85 [33 + a - 33; 33 + b - 33; 33 + c - 33; 33 + d - 33; 33 + e - 33] = Z.of_N (w * 16777216 + x * 65536 + y * 256 + z)).
    { rewrite E. unfold base85. cbn [fold_left]. change (85 ^ 4) with 52200625. change (85 ^ 3) with 614125. change (85 ^ 2) with 7225. lia. }
    rewrite V. destruct (int_op_fits strict (Z.of_N (w * 16777216 + x * 65536 + y * 256 + z))) as [u Hu].
    { intro S. destruct (F S) as [Hw _]. lia. }
    rewrite Hu. cbn [rbind]. rewrite IH by (intro S; apply (F S)). cbn [rbind].
    assert (I := int_byte_of strict (Z.of_N (w * 16777216 + x * 65536 + y * 256 + z)) u ltac:(lia) Hu).
    rewrite !I by lia. repeat f_equal.
    + rewrite (byte_k _ 0 (Z.of_N w) (Z.of_N (x * 65536 + y * 256 + z))); lia.
    + rewrite (byte_k _ (Z.of_N w) (Z.of_N x) (Z.of_N (y * 256 + z))); lia.
    + rewrite (byte_k _ (Z.of_N (w * 256 + x)) (Z.of_N y) (Z.of_N z)); lia.
    + rewrite (byte_k _ (Z.of_N (w * 65536 + x * 256 + y)) (Z.of_N z) 0); lia.
  - destruct D as (Da & Db & Dc & Dd & De & E). destruct B as (Bw & _). rewrite be4 in E. do 2 a85_step. cbn [a85_clean a85_final].
    change (85 ^ 4) with 52200625 in E. change (85 ^ 3) with 614125 in E. change (85 ^ 2) with 7225 in E.
    match goal with |- context [int_op strict ?V] => set (VV := V); assert (EV : VV = (Z.of_N a * 52200625 + Z.of_N b * 614125 + 621435)%Z) by (unfold VV; lia) end.
    clearbody VV. destruct (int_op_fits strict VV) as [u Hu].
    { intro S. assert (Hw : w < 128) by apply (F S). lia. }
    rewrite Hu. cbn [rbind]. rewrite (int_byte_of strict VV u ltac:(lia) Hu) by lia. repeat f_equal.
    rewrite (byte_k _ 0 (Z.of_N w) (VV - Z.of_N w * 16777216)); lia.
  - destruct D as (Da & Db & Dc & Dd & De & E). destruct B as (Bw & Bx & _). rewrite be4 in E. do 3 a85_step. cbn [a85_clean a85_final].
    change (85 ^ 4) with 52200625 in E. change (85 ^ 3) with 614125 in E. change (85 ^ 2) with 7225 in E.
    match goal with |- context [int_op strict ?V] => set (VV := V); assert (EV : VV = (Z.of_N a * 52200625 + Z.of_N b * 614125 + Z.of_N c * 7225 + 7310)%Z) by (unfold VV; lia) end.
    clearbody VV. destruct (int_op_fits strict VV) as [u Hu].
    { intro S. assert (Hw : w < 128) by apply (F S). lia. }
    rewrite Hu. cbn [rbind]. rewrite !(int_byte_of strict VV u ltac:(lia) Hu) by lia. repeat f_equal.
    + rewrite (byte_k _ 0 (Z.of_N w) (VV - Z.of_N w * 16777216)); lia.
    + rewrite (byte_k _ (Z.of_N w) (Z.of_N x) (VV - Z.of_N (w * 256 + x) * 65536)); lia.
  - destruct D as (Da & Db & Dc & Dd & De & E). destruct B as (Bw & Bx & By & _). rewrite be4 in E. do 4 a85_step. cbn [a85_clean a85_final].
    change (85 ^ 4) with 52200625 in E. change (85 ^ 3) with 614125 in E. change (85 ^ 2) with 7225 in E.
    match goal with |- context [int_op strict ?V] => set (VV := V); assert (EV : VV = (Z.of_N a * 52200625 + Z.of_N b * 614125 + Z.of_N c * 7225 + Z.of_N d * 85 + 85)%Z) by (unfold VV; lia) end.
    clearbody VV. destruct (int_op_fits strict VV) as [u Hu].
    { intro S. assert (Hw : w < 128) by apply (F S). lia. }
    rewrite Hu. cbn [rbind]. rewrite !(int_byte_of strict VV u ltac:(lia) Hu) by lia. repeat f_equal.
    + rewrite (byte_k _ 0 (Z.of_N w) (VV - Z.of_N w * 16777216)); lia.
    + rewrite (byte_k _ (Z.of_N w) (Z.of_N x) (VV - Z.of_N (w * 256 + x) * 65536)); lia.
    + rewrite (byte_k _ (Z.of_N (w * 256 + x)) (Z.of_N y) (VV - Z.of_N (w * 65536 + x * 256 + y) * 256)); lia.
Qed.

Lemma ascii85_no_tilde : forall txt v, ascii85_text txt v -> ~ In 126 txt.
Proof.
  intros txt v H. induction H as [|t v H IH|a b c d e w x y z t v B D H IH|a b c d e w B D|a b c d e w x B D|a b c d e w x y B D];
    try (destruct D as (Da & Db & Dc & Dd & De & E)); cbn [In]; intuition lia.
Qed.

Lemma digits85_exist : forall v, v < 2 ^ 32 -> exists a b c d e, digits85 a b c d e v.
Proof.
  intros v Hv. exists (v / 85 / 85 / 85 / 85), (v / 85 / 85 / 85 mod 85), (v / 85 / 85 mod 85), (v / 85 mod 85), (v mod 85).
  unfold digits85. change (85 ^ 4) with 52200625. change (85 ^ 3) with 614125. change (85 ^ 2) with 7225.
  assert (E1 := N.div_mod v 85 ltac:(lia)). assert (E2 := N.div_mod (v / 85) 85 ltac:(lia)).
  assert (E3 := N.div_mod (v / 85 / 85) 85 ltac:(lia)). assert (E4 := N.div_mod (v / 85 / 85 / 85) 85 ltac:(lia)).
  assert (M1 := N.mod_lt v 85 ltac:(lia)). assert (M2 := N.mod_lt (v / 85) 85 ltac:(lia)).
  assert (M3 := N.mod_lt (v / 85 / 85) 85 ltac:(lia)). assert (M4 := N.mod_lt (v / 85 / 85 / 85) 85 ltac:(lia)).
  generalize dependent (v / 85 / 85 / 85 / 85). generalize dependent (v / 85 / 85 / 85 mod 85). generalize dependent (v / 85 / 85 / 85).
  generalize dependent (v / 85 / 85 mod 85). generalize dependent (v / 85 / 85).
  generalize dependent (v / 85 mod 85). generalize dependent (v / 85). generalize dependent (v mod 85).
  intros. lia.
Qed.

Lemma ascii85_text_exists : forall k v, (length v <= k)%nat -> all_bytes v -> exists txt, ascii85_text txt v.
Proof.
  induction k as [|k IH]; intros v L Hv.
  - destruct v; [|cbn in L; lia]. exists []. constructor.
  - assert (B : forall x, In x v -> x < 256) by (apply Forall_forall; exact Hv).
    destruct v as [|w [|x [|y [|z v]]]].
    + exists []. constructor.
    + assert (byte4 w 0 0 0) by (unfold byte4; specialize (B w (or_introl eq_refl)); lia).
      destruct (digits85_exist (big_endian [w; 0; 0; 0])) as (a & b & c & d & e & D); [rewrite be4; unfold byte4 in *; lia|].
      eexists. eapply a85_one; eassumption.
    + assert (byte4 w x 0 0). { assert (B1 := B w). assert (B2 := B x). cbn [In] in *. unfold byte4. repeat split; auto; lia. }
      destruct (digits85_exist (big_endian [w; x; 0; 0])) as (a & b & c & d & e & D); [rewrite be4; unfold byte4 in *; lia|].
      eexists. eapply a85_two; eassumption.
    + assert (byte4 w x y 0). { assert (B1 := B w). assert (B2 := B x). assert (B3 := B y). cbn [In] in *. unfold byte4. repeat split; auto; lia. }
      destruct (digits85_exist (big_endian [w; x; y; 0])) as (a & b & c & d & e & D); [rewrite be4; unfold byte4 in *; lia|].
      eexists. eapply a85_three; eassumption.
    + assert (byte4 w x y z). { assert (B1 := B w). assert (B2 := B x). assert (B3 := B y). assert (B4 := B z). cbn [In] in *. unfold byte4. repeat split; auto; lia. }
      destruct (digits85_exist (big_endian [w; x; y; z])) as (a & b & c & d & e & D); [rewrite be4; unfold byte4 in *; lia|].
      destruct (IH v) as [t Ht]; [cbn [length] in L; lia|unfold all_bytes in *; do 4 (apply Forall_inv_tail in Hv); exact Hv|].
      eexists. eapply a85_group; eassumption.
Qed.

(** ** ASCIIHex *)
Definition nonwhite_count (s : list N) : nat := length (without_white s).

Lemma ahex_white : forall ws n s pair, Forall (fun c => In c pdf_white) ws ->
  ahex_loop (length ws + n) (ws ++ s) pair = ahex_loop n s pair.
Proof.
  induction ws as [|c ws IH]; intros n s pair H; [reflexivity|]. inversion H; subst. cbn [length app plus ahex_loop].
  assert (W : is_white c = true) by (apply is_white_spec; assumption). rewrite W.
  replace (c =? 62) with false; [apply IH; assumption|]. symmetry. apply N.eqb_neq. intros ->. discriminate W.
Qed.

Lemma hex_digit_plain : forall h x, hex_digit h x -> (h =? 62) = false /\ is_white h = false.
Proof.
  intros h x H. destruct (hex_digit_val h x H) as (_ & _ & Hn & _). unfold is_numeric, is_alpha, is_white in *. lia.
Qed.

Lemma without_white_app : forall a b, without_white (a ++ b) = without_white a ++ without_white b.
Proof. intros. unfold without_white. apply filter_app. Qed.
Lemma without_white_ws : forall ws, Forall (fun c => In c pdf_white) ws -> without_white ws = [].
Proof.
  induction ws as [|c ws IH]; intros H; [reflexivity|]. inversion H; subst. rewrite without_white_cons.
  assert (W : is_white c = true) by (apply is_white_spec; assumption). rewrite W. auto.
Qed.

Lemma hex_pair_ok : forall h l x y, hex_digit h x -> hex_digit l y -> hex_pair_to_byte [h; l] = Ok (16 * x + y).
Proof.
  intros h l x y Hh Hl. unfold hex_pair_to_byte. rewrite (stoi_hex_pair h l x y) by assumption. cbn [rbind].
  apply to_uchar_byte. destruct (hex_digit_val h x Hh) as (_ & A & _). destruct (hex_digit_val l y Hl) as (_ & B & _). unfold is_byte. lia.
Qed.
Lemma hex_single_ok : forall h x, hex_digit h x -> hex_pair_to_byte [h; 0] = Ok x.
Proof.
  intros h x Hh. unfold hex_pair_to_byte.
  assert (E : stoi 16 [h; 0] = Ok (Z.of_N x)).
  { destruct (hex_digit_val h x Hh) as (_ & A & _).
    assert (S : forallb (fun v => match stoi 16 [48 + v; 0], stoi 16 [55 + v; 0], stoi 16 [87 + v; 0] with
       | Ok a, b, c => if v <? 10 then (a =? Z.of_N v)%Z else match b, c with Ok b, Ok c => (b =? Z.of_N v)%Z && (c =? Z.of_N v)%Z | _, _ => false end
       | _, Ok b, Ok c => (10 <=? v) && (b =? Z.of_N v)%Z && (c =? Z.of_N v)%Z
       | _, _, _ => false end) (nrange 0 16) = true) by (vm_compute; reflexivity).
    rewrite forallb_forall in S.
    assert (I : In x (nrange 0 16)) by (apply nrange_in; lia). specialize (S x I). cbv beta in S.
    inversion Hh; subst.
    - destruct (stoi 16 [48 + x; 0]); try (destruct (stoi 16 [55 + x; 0]); try discriminate; destruct (stoi 16 [87 + x; 0]); try discriminate; lia).
      replace (x <? 10) with true in S by lia. f_equal. lia.
    - destruct (stoi 16 [55 + x; 0]) eqn:E55, (stoi 16 [48 + x; 0]); try discriminate; try (replace (x <? 10) with false in S by lia); destruct (stoi 16 [87 + x; 0]); try discriminate; f_equal; lia.
    - destruct (stoi 16 [87 + x; 0]) eqn:E87, (stoi 16 [48 + x; 0]); try discriminate; try (replace (x <? 10) with false in S by lia); destruct (stoi 16 [55 + x; 0]); try discriminate; f_equal; lia. }
  rewrite E. apply to_uchar_byte. destruct (hex_digit_val h x Hh) as (_ & A & _). unfold is_byte. lia.
Qed.

(** how the decoder reads a standard text: like the standard, but a lone last digit x gives the byte x and not 16 x *)
Inductive ahex_value : bool -> list N -> list N -> Prop :=
| av_even : forall v, ahex_value true v v
| av_odd : forall v x, ahex_value false (v ++ [16 * x]) (v ++ [x]).

Lemma ahex_text : forall txt v, hex_text txt v -> forall n tail,
  (n = length txt \/ (length txt < n)%nat /\ exists r, tail = 62 :: r) ->
  exists w, ahex_loop n (txt ++ tail) [] = Ok w /\ ahex_value (Nat.even (nonwhite_count txt)) v w.
Proof.
  intros txt v H. induction H as [|c txt v Hc H IH|h ws l x y txt v Hh Hw Hl H IH|h ws x Hh Hw]; intros n tail Hn.
  - exists []. cbn [app length] in *. split; [|constructor]. destruct Hn as [->|[L [r ->]]]; [reflexivity|]. destruct n; [lia|reflexivity].
  - cbn [length] in Hn. destruct n as [|n]; [lia|].
    destruct (IH n tail) as (w & E & A); [destruct Hn as [?|[? ?]]; [left|right; split; [|assumption]]; lia|].
    exists w. assert (W : is_white c = true) by (apply is_white_spec; assumption).
    unfold nonwhite_count. rewrite without_white_cons, W. split; [|exact A].
    cbn [app ahex_loop]. rewrite W. replace (c =? 62) with false; [exact E|]. symmetry. apply N.eqb_neq. intros ->. discriminate W.
  - cbn [length] in Hn. rewrite app_length in Hn. cbn [length] in Hn.
    destruct (hex_digit_plain h x Hh) as [H1 H2]. destruct (hex_digit_plain l y Hl) as [L1 L2].
    assert (Hm : exists m, n = S (length ws + S m)).
    { exists (n - length ws - 2)%nat. lia. }
    destruct Hm as [m ->].
    destruct (IH m tail) as (w & E & A); [destruct Hn as [?|[? ?]]; [left|right; split; [|assumption]]; lia|].
    exists (16 * x + y :: w). split.
    + cbn [app ahex_loop]. rewrite H1, H2. cbn [app length Nat.eqb]. rewrite <- app_assoc, ahex_white by assumption.
      cbn [app ahex_loop]. rewrite L1, L2. cbn [app length Nat.eqb]. rewrite (hex_pair_ok h l x y) by assumption. cbn [rbind].
      rewrite E. reflexivity.
    + unfold nonwhite_count. rewrite without_white_cons, H2, without_white_app, without_white_ws, app_nil_l, without_white_cons, L2 by assumption.
      cbn [length Nat.even]. unfold nonwhite_count in A.
      inversion A; subst; [constructor|]. change (16 * x + y :: v0 ++ [16 * x0]) with ((16 * x + y :: v0) ++ [16 * x0]).
      change (16 * x + y :: v0 ++ [x0]) with ((16 * x + y :: v0) ++ [x0]). constructor.
  - destruct (hex_digit_plain h x Hh) as [H1 H2]. cbn [length] in Hn.
    exists ([] ++ [x]). split.
    + assert (F : forall m, m = 0%nat \/ (0 < m)%nat /\ (exists r, tail = 62 :: r) -> ahex_loop m tail [h] = Ok [x]).
      { intros m [->|[L [r ->]]]; [|destruct m; [lia|]]; cbn [ahex_loop]; rewrite ?N.eqb_refl; cbn [app]; rewrite (hex_single_ok h x Hh); reflexivity. }
      assert (Hm : exists m, n = S (length ws + m)) by (exists (n - length ws - 1)%nat; lia). destruct Hm as [m ->].
      cbn [app ahex_loop]. rewrite H1, H2. cbn [app length Nat.eqb]. rewrite ahex_white by assumption. apply F.
      destruct Hn as [?|[? ?]]; [left|right; split; [|assumption]]; lia.
    + unfold nonwhite_count. rewrite without_white_cons, H2, without_white_ws by assumption. cbn [length Nat.even].
      change [16 * x] with ([] ++ [16 * x]). constructor.
Qed.

(** ** PNG predictor *)
Lemma upd_length : forall l i v, length (upd l i v) = length l.
Proof. induction l as [|x l IH]; intros [|i] v; cbn [upd length]; auto. Qed.
Lemma upd_at : forall l i v j, (i < length l)%nat -> at_ (upd l i v) j = if Nat.eqb j i then v else at_ l j.
Proof.
  unfold at_. induction l as [|x l IH]; intros [|i] v [|j] H; cbn [upd nth length] in *; try lia; auto.
  rewrite IH by lia. reflexivity.
Qed.

Lemma for_to_S : forall k body cur, for_to (S k) body cur = body (for_to k body cur) k.
Proof. intros. unfold for_to. rewrite seq_S, fold_left_app. reflexivity. Qed.

(** a loop whose turn i sets position (s+i) from g, where g reads positions below s+i only *)
Lemma for_to_prefix : forall (s k : nat) (body : bytes -> nat -> bytes) cur goal,
  length goal = length cur -> (s + k <= length cur)%nat ->
  (forall j, (j < s)%nat -> at_ cur j = at_ goal j) ->
  (forall c i, (i < k)%nat -> length c = length cur ->
     (forall j, (j < length cur)%nat -> at_ c j = if Nat.ltb j (s + i) then at_ goal j else at_ cur j) ->
     body c i = upd c (s + i) (at_ goal (s + i))) ->
  length (for_to k body cur) = length cur /\
  (forall j, (j < length cur)%nat -> at_ (for_to k body cur) j = if Nat.ltb j (s + k) then at_ goal j else at_ cur j).
Proof.
  intros s k body cur goal Lg Hk H0 Hb. induction k as [|k IH].
  - unfold for_to. cbn [seq fold_left]. split; [reflexivity|]. intros j Hj. rewrite Nat.add_0_r.
    destruct (Nat.ltb_spec j s); auto.
  - destruct IH as [IL IA]; [lia|intros; apply Hb; auto; lia|].
    rewrite for_to_S. rewrite Hb; [|lia|exact IL|exact IA]. split; [rewrite upd_length; exact IL|].
    intros j Hj. rewrite upd_at by lia. destruct (Nat.eqb_spec j (s + k)) as [->|Ne].
    + destruct (Nat.ltb_spec (s + k) (s + S k)); [reflexivity|lia].
    + rewrite IA by exact Hj. destruct (Nat.ltb_spec j (s + k)), (Nat.ltb_spec j (s + S k)); try lia; reflexivity.
Qed.

Lemma for_to_goal : forall (s : nat) body cur goal, (s <= length cur)%nat ->
  length goal = length cur ->
  (forall j, (j < s)%nat -> at_ cur j = at_ goal j) ->
  (forall c i, (i < length cur - s)%nat -> length c = length cur ->
     (forall j, (j < length cur)%nat -> at_ c j = if Nat.ltb j (s + i) then at_ goal j else at_ cur j) ->
     body c i = upd c (s + i) (at_ goal (s + i))) ->
  for_to (length cur - s) body cur = goal.
Proof.
  intros s body cur goal Hs Lg H0 Hb.
  destruct (for_to_prefix s (length cur - s) body cur goal Lg ltac:(lia) H0 Hb) as [L A].
  apply (nth_ext _ _ 0 0); [lia|]. intros j Hj. fold (at_ (for_to (length cur - s) body cur) j). rewrite A by lia.
  destruct (Nat.ltb_spec j (s + (length cur - s))); [reflexivity|lia].
Qed.

Lemma filter_row_length : forall bpp f prior raw, length (png_filter_row bpp f prior raw) = length raw.
Proof. intros. unfold png_filter_row. rewrite map_length, seq_length. reflexivity. Qed.

Lemma filter_row_at : forall bpp f prior raw i, (i < length raw)%nat ->
  at_ (png_filter_row bpp f prior raw) i =
  (nth i raw 0 + 256 - png_predict f (before raw bpp i) (nth i prior 0) (before prior bpp i)) mod 256.
Proof.
  intros bpp f prior raw i H. unfold at_, png_filter_row. set (F := fun i : nat => _).
  rewrite (nth_indep _ 0 (F 0%nat)) by (rewrite map_length, seq_length; exact H).
  rewrite map_nth, seq_nth by exact H. reflexivity.
Qed.

Lemma at_byte : forall l i, all_bytes l -> at_ l i < 256.
Proof.
  intros l i H. unfold at_. destruct (Nat.ltb_spec i (length l)) as [L|L].
  - unfold all_bytes in H. rewrite Forall_forall in H. apply H, nth_In, L.
  - rewrite nth_overflow by exact L. lia.
Qed.

Lemma add8_inverse : forall r p, r < 256 -> p < 256 -> add8 ((r + 256 - p) mod 256) p = r.
Proof. intros r p Hr Hp. unfold add8. lia. Qed.

Lemma before_S : forall l bpp i, before l bpp (bpp + i) = at_ l i.
Proof. intros l bpp i. unfold before, at_. destruct (Nat.ltb_spec (bpp + i) bpp); [lia|]. f_equal. lia. Qed.
Lemma before_small : forall l bpp i, (i < bpp)%nat -> before l bpp i = 0.
Proof. intros l bpp i H. unfold before. destruct (Nat.ltb_spec i bpp); [reflexivity|lia]. Qed.

Lemma unfilter_none : forall bpp prior raw, all_bytes raw -> png_filter_row bpp 0 prior raw = raw.
Proof.
  intros bpp prior raw H. apply (nth_ext _ _ 0 0); [apply filter_row_length|]. intros i Hi. rewrite filter_row_length in Hi.
  fold (at_ (png_filter_row bpp 0 prior raw) i). rewrite filter_row_at by exact Hi. cbn [png_predict].
  assert (B := at_byte raw i H). unfold at_ in B. lia.
Qed.

Lemma unfilter_row_sub : forall bpp prior raw, (1 <= bpp)%nat -> all_bytes raw ->
  unfilter_row bpp 1 prior (png_filter_row bpp 1 prior raw) = Ok raw.
Proof.
  intros bpp prior raw Hb H. unfold unfilter_row. f_equal. set (cur := png_filter_row bpp 1 prior raw).
  assert (L : length cur = length raw) by apply filter_row_length.
  assert (C0 : forall j, (j < length raw)%nat -> (j < bpp)%nat -> at_ cur j = at_ raw j).
  { intros j Hj Hjb. unfold cur. rewrite filter_row_at by exact Hj. cbn [png_predict]. rewrite before_small by exact Hjb.
    assert (B := at_byte raw j H). unfold at_ in *. lia. }
  destruct (Nat.ltb_spec (length cur) bpp) as [S|S].
  - replace (length cur - bpp)%nat with 0%nat by lia. unfold for_to. cbn [seq fold_left].
    apply (nth_ext _ _ 0 0); [exact L|]. intros j Hj. apply C0; lia.
  - apply for_to_goal; [exact S|symmetry; exact L|intros j Hj; apply C0; lia|].
    intros c i Hi Lc A. f_equal. rewrite (A (bpp + i)%nat), (A i) by lia.
    destruct (Nat.ltb_spec (bpp + i) (bpp + i)); [lia|]. destruct (Nat.ltb_spec i (bpp + i)); [|lia].
    unfold cur. rewrite filter_row_at by lia. cbn [png_predict]. rewrite before_S. apply add8_inverse; apply at_byte; exact H.
Qed.

Lemma unfilter_row_up : forall bpp prior raw, all_bytes raw -> all_bytes prior ->
  unfilter_row bpp 2 prior (png_filter_row bpp 2 prior raw) = Ok raw.
Proof.
  intros bpp prior raw H Hp. unfold unfilter_row. f_equal. set (cur := png_filter_row bpp 2 prior raw).
  assert (L : length cur = length raw) by apply filter_row_length.
  replace (length cur) with (length cur - 0)%nat by lia.
  apply for_to_goal; [lia|symmetry; exact L|intros j Hj; lia|].
  intros c i Hi Lc A. cbn [plus] in *. f_equal. rewrite (A i) by lia. destruct (Nat.ltb_spec i i); [lia|].
  unfold cur. rewrite filter_row_at by lia. cbn [png_predict]. apply add8_inverse; apply at_byte; assumption.
Qed.

(** rows of one pixel: Average and Paeth are right *)
Lemma unfilter_row_first : forall bpp f prior raw, (f = 3 \/ f = 4) -> length raw = bpp -> all_bytes raw -> all_bytes prior ->
  unfilter_row bpp f prior (png_filter_row bpp f prior raw) = Ok raw.
Proof.
  intros bpp f prior raw Hf Lr H Hp.
  assert (L : length (png_filter_row bpp f prior raw) = length raw) by apply filter_row_length.
  assert (PB : forall a b c, a < 256 -> b < 256 -> c < 256 -> png_predict f a b c < 256).
  { intros a b c Ha Hb Hc. destruct Hf as [-> | ->]; cbn [png_predict]; [lia|]. unfold png_paeth. repeat cif; assumption. }
  destruct Hf as [-> | ->]; unfold unfilter_row; rewrite L, Lr.
  - destruct (Nat.ltb_spec bpp bpp); [lia|]. f_equal. rewrite Nat.sub_diag. unfold for_to at 1. cbn [seq fold_left].
    set (cur := png_filter_row bpp 3 prior raw) in *.
    replace bpp with (length cur - 0)%nat at 1 by lia.
    apply for_to_goal; [lia|symmetry; exact L|intros j Hj; lia|].
    intros c i Hi Lc A. cbn [plus] in *. f_equal. rewrite (A i) by lia. destruct (Nat.ltb_spec i i); [lia|].
    unfold cur. rewrite filter_row_at by lia. cbn [png_predict]. rewrite (before_small raw) by lia. rewrite N.add_0_l.
    apply add8_inverse; [apply at_byte; assumption|]. assert (B := at_byte prior i Hp). unfold at_ in *. lia.
  - destruct (Nat.ltb_spec bpp bpp); [lia|]. f_equal. rewrite Nat.sub_diag. unfold for_to at 1. cbn [seq fold_left].
    set (cur := png_filter_row bpp 4 prior raw) in *.
    replace bpp with (length cur - 0)%nat at 1 by lia.
    apply for_to_goal; [lia|symmetry; exact L|intros j Hj; lia|].
    intros c i Hi Lc A. cbn [plus] in *. f_equal. rewrite (A i) by lia. destruct (Nat.ltb_spec i i); [lia|].
    unfold cur. rewrite filter_row_at by lia. cbn [png_predict]. rewrite (before_small raw), (before_small prior) by lia.
    replace (png_paeth 0 (nth i prior 0) 0) with (at_ prior i).
    + apply add8_inverse; apply at_byte; assumption.
    + unfold png_paeth, at_. cbv zeta. repeat cif; lia.
Qed.

Lemma unfilter_image : forall bpp row rows fuel prior, (1 <= bpp)%nat -> all_bytes prior ->
  Forall (fun r => (fst r <= 2 \/ (fst r <= 4 /\ row = bpp)) /\ length (snd r) = row /\ all_bytes (snd r)) rows ->
  (length (png_filter_image bpp prior rows) <= fuel)%nat ->
  unfilter fuel bpp row prior (png_filter_image bpp prior rows) = Ok (concat (map snd rows)).
Proof.
  intros bpp row. induction rows as [|[f raw] rows IH]; intros fuel prior Hb Hp HF Hf.
  - destruct fuel; reflexivity.
  - inversion HF as [|? ? (H1 & H2 & H3) HF']; subst. cbn [fst snd] in *. cbn [png_filter_image] in *.
    assert (L := filter_row_length bpp f prior raw). cbn [length] in Hf. rewrite app_length, L in Hf.
    destruct fuel as [|fuel]; [lia|]. cbn [unfilter]. rewrite app_length, L.
    destruct (Nat.ltb_spec (length raw + length (png_filter_image bpp raw rows)) (length raw)); [lia|].
    rewrite firstn_app, skipn_app, L, Nat.sub_diag. cbn [firstn skipn]. rewrite app_nil_r.
    rewrite firstn_all2, skipn_all2 by lia. cbn [app].
    assert (R : unfilter_row bpp f prior (png_filter_row bpp f prior raw) = Ok raw).
    { assert (C : f = 0 \/ f = 1 \/ f = 2 \/ ((f = 3 \/ f = 4) /\ length raw = bpp)) by lia.
      destruct C as [->|[->|[->|[C E]]]].
      - rewrite unfilter_none by assumption. reflexivity.
      - apply unfilter_row_sub; assumption.
      - apply unfilter_row_up; assumption.
      - apply unfilter_row_first; assumption. }
    rewrite R. cbn [rbind]. rewrite IH; [reflexivity|assumption|assumption|exact HF'|lia].
Qed.

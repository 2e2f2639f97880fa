(** Cross-reference streams. *)
From Coq Require Import List NArith ZArith Bool Lia String Sorted.
From Verif.Model Require Import Base Char Numbers SMap Object Token Parser Arith Xref.
From Verif.Spec Require Import Strings Grammar Xref Arith.
From Verif.Proof Require Import Tac Numbers Strings Token SMap Parser Writer Arith Xref.
Import ListNotations.
Local Open Scope N_scope.

(** ** big-endian fields *)
Lemma wrap64_small : forall v, (0 <= v < 2 ^ 63)%Z -> wrap int64_t v = v.
Proof.
  intros v H. apply wrap_id; [vm_compute; discriminate|]. unfold rep, representable. cbn [int64_t bits sgn].
  change (2 ^ (Z.of_N 64 - 1))%Z with 9223372036854775808%Z. change (2 ^ 63)%Z with 9223372036854775808%Z in H. lia.
Qed.
Lemma wrapu64_small : forall v, (0 <= v < 2 ^ 64)%Z -> wrap uint64_t v = v.
Proof.
  intros v H. apply wrap_id; [vm_compute; discriminate|]. unfold rep, representable. cbn [uint64_t bits sgn].
  change (2 ^ Z.of_N 64)%Z with 18446744073709551616%Z. change (2 ^ 64)%Z with 18446744073709551616%Z in H. lia.
Qed.

Lemma read_be : forall n v acc s, acc * 256 ^ N.of_nat n + v mod 256 ^ N.of_nat n < 2 ^ 63 ->
  read_field n (Z.of_N acc) (be_bytes n v ++ s) = Ok (Z.of_N (acc * 256 ^ N.of_nat n + v mod 256 ^ N.of_nat n), s).
Proof.
  induction n as [|n IH]; intros v acc s H.
  - cbn [read_field be_bytes app]. change (256 ^ N.of_nat 0) with 1. rewrite N.mod_1_r, N.mul_1_r, N.add_0_r. reflexivity.
  - cbn [read_field be_bytes app]. rewrite Nat2N.inj_succ, N.pow_succ_r' in *. set (p := 256 ^ N.of_nat n) in *.
    assert (Hp : p <> 0) by (unfold p; apply N.pow_nonzero; lia).
    assert (Em : v mod (256 * p) = v mod p + p * ((v / p) mod 256)).
    { rewrite (N.mul_comm 256 p). apply N.mod_mul_r; lia. }
    rewrite Em in *. set (b := (v / p) mod 256) in *.
    assert (Hb : b < 256) by (unfold b; apply N.mod_lt; lia).
    assert (Hsum : acc * (256 * p) + (v mod p + p * b) = (acc * 256 + b) * p + v mod p) by lia.
    rewrite Hsum in *.
    assert (Hsmall : acc * 256 + b < 2 ^ 63). { apply N.le_lt_trans with ((acc * 256 + b) * p + v mod p); [|exact H]. nia. }
    change (2 ^ 63) with 9223372036854775808 in Hsmall.
    rewrite (wrap64_small (Z.of_N acc * 256)) by (change (2 ^ 63)%Z with 9223372036854775808%Z; lia).
    rewrite wrap64_small by (change (2 ^ 63)%Z with 9223372036854775808%Z; lia).
    replace (Z.of_N acc * 256 + Z.of_N b)%Z with (Z.of_N (acc * 256 + b)) by lia.
    rewrite IH by exact H. reflexivity.
Qed.

Lemma read_written : forall w v s, v < 256 ^ N.of_nat w -> v < 2 ^ 63 -> read_field w 0 (be_bytes w v ++ s) = Ok (Z.of_N v, s).
Proof.
  intros w v s Hv H63. assert (E := read_be w v 0 s). rewrite N.mod_small in E by exact Hv. rewrite N.mul_0_l, N.add_0_l in E.
  exact (E H63).
Qed.

Lemma write_value_ok : forall v w, (0 <= w <= 8)%Z -> v < 256 ^ Z.to_N w -> write_value v w = Ok (be_bytes (Z.to_nat w) v).
Proof.
  intros v w Hw Hv. unfold write_value. replace (w <? 0)%Z with false by lia. rewrite N.div_small by exact Hv.
  cbn [N.eqb negb]. rewrite andb_false_r. replace (8 <? w)%Z with false by lia. reflexivity.
Qed.

(** ** widths *)
Lemma msb_spec : forall v, exists k, most_significant_bit v = Ok k /\ v < 2 ^ k /\ (v <> 0 -> 2 ^ (k - 1) <= v) /\ (v = 0 -> k = 0).
Proof.
  intros v. destruct (msb_fuel_spec (S (N.size_nat v)) v 0 ltac:(lia)) as (k & E & H). exists k. split; [exact E|exact H].
Qed.

Lemma msb_bound : forall v k n, (v <> 0 -> 2 ^ (k - 1) <= v) -> (v = 0 -> k = 0) -> v < 2 ^ n -> k <= n.
Proof.
  intros v k n H1 H2 Hv. destruct (N.eq_dec v 0) as [->|Hne]; [rewrite H2 by reflexivity; lia|].
  specialize (H1 Hne). assert (H : 2 ^ (k - 1) < 2 ^ n) by lia. apply N.pow_lt_mono_r_iff in H; lia.
Qed.

Lemma pow256 : forall n, 256 ^ n = 2 ^ (8 * n).
Proof. intros n. rewrite N.pow_mul_r. reflexivity. Qed.

Lemma bytes_needed_ok : forall v, v < 2 ^ 63 -> exists b, bytes_needed v = Ok b /\ 1 <= b <= 8 /\ v < 256 ^ b.
Proof.
  intros v Hv. destruct (msb_spec v) as (k & E & H1 & H2 & H3). unfold bytes_needed. rewrite E. cbn [rbind].
  exists (k / 8 + 1). split; [reflexivity|]. assert (Hk := msb_bound v k 63 H2 H3 Hv). split; [lia|].
  rewrite pow256. eapply N.lt_le_trans; [exact H1|]. apply N.pow_le_mono_r; lia.
Qed.

Definition values_small (e : xentry) : Prop := let '(a, b) := field_values e in a < 2 ^ 63 /\ b < 2 ^ 63.
Lemma range_values : forall e, entry_in_range e -> values_small e /\ msb_args e = field_values e.
Proof.
  intros e (Hn & Hg & Hd). unfold values_small, field_values, msb_args.
  assert (Hg' : xgen e < 2 ^ 63) by (change (2 ^ 63) with 9223372036854775808; lia).
  destruct (xdata e) as [next|o u|a b]; [auto| |destruct Hd; auto].
  destruct Hd as [Ho _]. rewrite wrapu64_small by (change (2 ^ 63)%Z with 9223372036854775808%Z in Ho; change (2 ^ 64)%Z with 18446744073709551616%Z; lia).
  split; [|reflexivity]. split; [|exact Hg']. change (2 ^ 63)%Z with 9223372036854775808%Z in Ho. change (2 ^ 63) with 9223372036854775808. lia.
Qed.

Lemma max_bytes_ok : forall l m2 m3, Forall entry_in_range l -> m2 <= 8 -> m3 <= 8 ->
  exists r2 r3, max_bytes l m2 m3 = Ok (r2, r3) /\ m2 <= r2 <= 8 /\ m3 <= r3 <= 8 /\
    Forall (fun e => fst (field_values e) < 256 ^ r2 /\ snd (field_values e) < 256 ^ r3) l.
Proof.
  induction l as [|e l IH]; intros m2 m3 Hr H2 H3; cbn [max_bytes].
  - exists m2, m3. repeat split; try lia; constructor.
  - inversion Hr as [|? ? He Hl]; subst. destruct (range_values e He) as [Hv Eq]. rewrite Eq. unfold values_small in Hv.
    destruct (field_values e) as [a b] eqn:Ef. destruct Hv as [Ha Hb].
    destruct (bytes_needed_ok a Ha) as (b2 & E2 & B2 & L2). destruct (bytes_needed_ok b Hb) as (b3 & E3 & B3 & L3).
    rewrite E2, E3. cbn [rbind].
    destruct (IH (if m2 <? b2 then b2 else m2) (if m3 <? b3 then b3 else m3) Hl) as (r2 & r3 & E & R2 & R3 & F);
      [destruct (m2 <? b2); lia|destruct (m3 <? b3); lia|].
    exists r2, r3. split; [exact E|].
    assert (m2 <= r2 /\ b2 <= r2) by (destruct (m2 <? b2) eqn:?; lia).
    assert (m3 <= r3 /\ b3 <= r3) by (destruct (m3 <? b3) eqn:?; lia).
    repeat split; try lia. constructor; [|exact F]. rewrite Ef. cbn [fst snd].
    split; (eapply N.lt_le_trans; [eassumption|apply N.pow_le_mono_r; lia]).
Qed.

Lemma raise_width_ok : forall m w, m <= 8 -> (0 <= w <= 8)%Z -> exists w', raise_width m w = Ok w' /\ (0 <= w' <= 8)%Z /\ m <= Z.to_N w'.
Proof.
  intros m w Hm Hw. unfold raise_width, to_u64. replace (w <? 0)%Z with false by lia. cbn [rbind].
  eexists. split; [reflexivity|]. destruct (Z.to_N w <? m) eqn:E; split; lia.
Qed.

Definition fits (w : widths) (e : xentry) : Prop :=
  let '(w1, w2, w3) := w in
  (1 <= w1 <= 8)%Z /\ (0 <= w2 <= 8)%Z /\ (0 <= w3 <= 8)%Z /\
  fst (field_values e) < 256 ^ Z.to_N w2 /\ snd (field_values e) < 256 ^ Z.to_N w3.

Definition reread (e : xentry) : xentry :=
  match xdata e with
  | KFree n => e
  | KUsed o _ => {| xnum := xnum e; xgen := xgen e; xdata := KUsed o true |}
  | KComp a b => {| xnum := xnum e; xgen := 0; xdata := KComp a b |}
  end.
Lemma reread_num : forall e, xnum (reread e) = xnum e.
Proof. intros e. unfold reread. destruct (xdata e); reflexivity. Qed.
Lemma reread_record : forall e, record_of (reread e) = record_of e.
Proof. intros [n g [x|o u|a b]]; reflexivity. Qed.

Lemma row_entry : forall w e first idx s, entry_in_range e -> fits w e -> (0 <= idx <= int32_max)%Z ->
  xnum e = first + Z.to_N idx ->
  exists row, stream_row w e = Ok row /\ read_stream_entry w (Z.of_N first) idx (row ++ s) = Ok (reread e, s).
Proof.
  intros [[w1 w2] w3] e first idx s Hr (H1 & H2 & H3 & F2 & F3) Hi Hn. unfold stream_row, read_stream_entry.
  destruct (range_values e Hr) as [Hv _]. unfold values_small in Hv.
  assert (Hsem : exists f2 f3, field_values e = (f2, f3)) by (destruct (field_values e); eauto).
  destruct Hsem as (f2 & f3 & Ef). rewrite Ef in *. cbn [fst snd] in *. destruct Hv as [S2 S3].
  assert (Ht : entry_type e < 256 ^ Z.to_N w1).
  { apply N.lt_le_trans with (256 ^ 1); [unfold entry_type; destruct (xdata e); reflexivity|apply N.pow_le_mono_r; lia]. }
  assert (Ht63 : entry_type e < 2 ^ 63) by (unfold entry_type; destruct (xdata e); reflexivity).
  rewrite !write_value_ok by (assumption || lia). cbn [rbind]. eexists. split; [reflexivity|].
  assert (Hw : forall w, (0 <= w)%Z -> N.of_nat (Z.to_nat w) = Z.to_N w) by lia.
  rewrite <- !app_assoc.
  rewrite read_written by (rewrite ?Hw by lia; assumption). cbn [rbind].
  rewrite read_written by (rewrite ?Hw by lia; assumption). cbn [rbind].
  rewrite read_written by (rewrite ?Hw by lia; assumption). cbn [rbind].
  destruct Hr as (Hn63 & Hg & Hd). change (2 ^ 63) with 9223372036854775808 in *.
  rewrite wrapu64_small by (change (2 ^ 64)%Z with 18446744073709551616%Z; lia). rewrite N2Z.id.
  rewrite add_u64_int_ok by (try lia; change (2 ^ 64) with 18446744073709551616; lia). rewrite <- Hn. cbn [rbind].
  assert (Hto : forall v, v <= 65535 -> to_u16 (Z.of_N v) = Ok v).
  { intros v Hv. unfold to_u16. replace (Z.of_N v <? 0)%Z with false by lia. replace (Z.of_N v <=? 65535)%Z with true by lia.
    rewrite N2Z.id. reflexivity. }
  unfold field_values in Ef. unfold entry_type, reread. destruct e as [num gen data]. cbn [xnum xgen xdata] in *.
  destruct data as [next|o u|a b]; inversion Ef; subst f2 f3.
  - cbn [Z.of_N Z.eqb]. rewrite Hto by exact Hg. cbn [rbind].
    rewrite wrapu64_small by (change (2 ^ 64)%Z with 18446744073709551616%Z; lia). rewrite N2Z.id. reflexivity.
  - destruct Hd as [Ho _]. change (2 ^ 63)%Z with 9223372036854775808%Z in Ho.
    rewrite (wrapu64_small o) by (change (2 ^ 64)%Z with 18446744073709551616%Z; lia). rewrite (Z2N.id o) by lia.
    change (Z.of_N 1 =? 0)%Z with false. change (Z.of_N 1 =? 1)%Z with true. cbv iota. rewrite Hto by exact Hg. reflexivity.
  - change (Z.of_N 2 =? 0)%Z with false. change (Z.of_N 2 =? 1)%Z with false. change (Z.of_N 2 =? 2)%Z with true. cbv iota.
    unfold to_u64. replace (Z.of_N b <? 0)%Z with false by lia. cbn [rbind].
    rewrite wrapu64_small by (change (2 ^ 64)%Z with 18446744073709551616%Z; lia). rewrite !N2Z.id. reflexivity.
Qed.

(** rows of a run *)
Fixpoint rows_of (w : widths) (l : list xentry) : bytes :=
  match l with
  | [] => []
  | e :: t => match stream_row w e with Ok r => r | _ => [] end ++ rows_of w t
  end.

Lemma rows_of_app : forall w a b, rows_of w (a ++ b) = rows_of w a ++ rows_of w b.
Proof. induction a as [|e a IH]; intros b; [reflexivity|]. cbn [rows_of app]. rewrite IH, app_assoc. reflexivity. Qed.

Lemma run_read : forall w p first i s acc, Forall entry_in_range p -> Forall (fits w) p -> consecutive (first + N.of_nat i) p ->
  (Z.of_nat (i + List.length p) <= int32_max)%Z -> Forall (fun x => xnum x < first + N.of_nat i) acc ->
  read_stream_rows w (Z.of_N first) (List.length p) (Z.of_nat i) (rows_of w p ++ s) acc = Ok (acc ++ map reread p, s).
Proof.
  induction p as [|e p IH]; intros first i s acc Hr Hf Hc Hi Ha.
  - cbn [List.length read_stream_rows rows_of app map]. rewrite app_nil_r. reflexivity.
  - cbn [List.length] in *. cbn [consecutive] in Hc. destruct Hc as [Hn Hc].
    inversion Hr as [|? ? Hre Hrl]; subst. inversion Hf as [|? ? Hfe Hfl]; subst.
    destruct (row_entry w e first (Z.of_nat i) (rows_of w p ++ s) Hre Hfe ltac:(lia) ltac:(lia)) as (row & E1 & E2).
    cbn [read_stream_rows rows_of]. rewrite E1. rewrite <- app_assoc, E2. cbn [rbind].
    replace (int32_max <=? Z.of_nat i)%Z with false by lia. replace (Z.of_nat i + 1)%Z with (Z.of_nat (S i)) by lia.
    rewrite xadd_last by (rewrite reread_num, Hn; exact Ha).
    rewrite IH; try assumption.
    + rewrite <- app_assoc. reflexivity.
    + replace (first + N.of_nat (S i)) with (first + N.of_nat i + 1) by lia. exact Hc.
    + lia.
    + apply Forall_app. split; [|constructor; [rewrite reread_num; lia|constructor]].
      rewrite Forall_forall in *. intros x Hx. specialize (Ha x Hx). lia.
Qed.

Lemma consecutive_app : forall a b n, consecutive n (a ++ b) <-> consecutive n a /\ consecutive (n + N.of_nat (List.length a)) b.
Proof.
  induction a as [|e a IH]; intros b n; cbn [app consecutive List.length].
  - rewrite N.add_0_r. tauto.
  - rewrite IH. replace (n + 1 + N.of_nat (List.length a)) with (n + N.of_nat (S (List.length a))) by lia. tauto.
Qed.

(** the writer, with an open run [p] of consecutive entries from [idx] on, and the reader of what it writes *)
Lemma stream_rows_read : forall w l p idx prev,
  xsorted (p ++ l) -> Forall entry_in_range (p ++ l) -> Forall (fits w) (p ++ l) -> consecutive idx p ->
  (p <> [] -> prev = idx + N.of_nat (List.length p) - 1) ->
  (p = [] -> match l with [] => True | e :: _ => xnum e = idx end) ->
  (Z.of_nat (List.length (p ++ l)) <= int32_max)%Z ->
  exists index data, stream_rows w l idx (N.of_nat (List.length p)) prev = Ok (index, data) /\
    forall acc, Forall (fun a => Forall (fun x => xnum a < xnum x) (p ++ l)) acc ->
      read_stream_index w (map Z.of_N index) (rows_of w p ++ data) acc = Ok (acc ++ map reread (p ++ l)).
Proof.
  intros w. induction l as [|e l IH]; intros p idx prev Hs Hr Hf Hc Hp Hp0 Hlen.
  - cbn [stream_rows]. eexists. eexists. split; [reflexivity|]. intros acc Ha. rewrite app_nil_r in *.
    cbn [map read_stream_index]. rewrite app_nil_r.
    replace (Z.to_nat (Z.of_N (N.of_nat (List.length p)))) with (List.length p) by lia.
    destruct p as [|x p]; [cbn [List.length read_stream_rows rbind map]; rewrite app_nil_r; reflexivity|].
    rewrite <- (app_nil_r (rows_of w (x :: p))). change 0%Z with (Z.of_nat 0).
    rewrite run_read; try assumption; try (rewrite N.add_0_r; assumption); [reflexivity|].
    change (N.of_nat 0) with 0. rewrite N.add_0_r.
    cbn [consecutive] in Hc. destruct Hc as [<- _]. rewrite Forall_forall in *. intros a Hin. specialize (Ha a Hin). inversion Ha; subst. assumption.
  - assert (Hre : entry_in_range e) by (rewrite Forall_forall in Hr; apply Hr; apply in_or_app; right; left; reflexivity).
    assert (Hfe : fits w e) by (rewrite Forall_forall in Hf; apply Hf; apply in_or_app; right; left; reflexivity).
    destruct (row_entry w e (xnum e) 0 [] Hre Hfe ltac:(unfold int32_max; lia) ltac:(lia)) as (row & Erow & _).
    assert (Happ : forall (a : list xentry) b, a ++ e :: b = (a ++ [e]) ++ b) by (intros; rewrite <- app_assoc; reflexivity).
    assert (Hcont : consecutive idx (p ++ [e]) ->
      exists index data, stream_rows w l idx (N.of_nat (List.length p) + 1) (xnum e) = Ok (index, data) /\
      forall acc, Forall (fun a => Forall (fun x => xnum a < xnum x) (p ++ e :: l)) acc ->
        read_stream_index w (map Z.of_N index) (rows_of w p ++ row ++ data) acc = Ok (acc ++ map reread (p ++ e :: l))).
    { intros Hc2. rewrite (Happ p l) in *. destruct (IH (p ++ [e]) idx (xnum e)) as (index & data & E1 & E2); try assumption.
      - intros _. apply consecutive_app in Hc2. destruct Hc2 as [_ [H _]]. rewrite app_length. cbn [List.length]. lia.
      - intros C. destruct p; discriminate.
      - rewrite app_length in E1. cbn [List.length] in E1.
        replace (N.of_nat (List.length p + 1)) with (N.of_nat (List.length p) + 1) in E1 by lia.
        exists index, data. split; [exact E1|]. intros acc Ha. specialize (E2 acc Ha). rewrite rows_of_app in E2.
        cbn [rows_of] in E2. rewrite Erow, app_nil_r, <- app_assoc in E2. exact E2. }
    cbn [stream_rows]. destruct p as [|x p].
    + specialize (Hp0 eq_refl). cbn [List.length N.of_nat N.eqb rbind]. rewrite Erow. cbn [rbind].
      destruct Hcont as (index & data & E1 & E2); [cbn; auto|]. cbn [List.length] in E1. change (N.of_nat 0) with 0 in E1. rewrite E1. cbn [rbind].
      exists index, (row ++ data). split; [reflexivity|exact E2].
    + replace (N.of_nat (List.length (x :: p)) =? 0) with false by (cbn [List.length]; lia).
      specialize (Hp ltac:(discriminate)).
      assert (Hlast : idx + N.of_nat (List.length (x :: p)) <= xnum e).
      { apply xsorted_app in Hs. destruct Hs as (_ & _ & Hs).
        assert (Hin : exists y, In y (x :: p) /\ xnum y = idx + N.of_nat (List.length (x :: p)) - 1).
        { clear -Hc. revert x idx Hc. induction p as [|y p IHp]; intros x idx Hc.
          - exists x. split; [left; reflexivity|]. cbn in Hc |- *. lia.
          - cbn [consecutive] in Hc. destruct Hc as [H1 H2]. destruct (IHp y (idx + 1) H2) as (z & Hz & En).
            exists z. split; [right; exact Hz|]. cbn [List.length] in *. lia. }
        destruct Hin as (y & Hy & Ey). rewrite Forall_forall in Hs. specialize (Hs y Hy). inversion Hs; subst. unfold xlt in *. cbn [List.length] in *. lia. }
      rewrite add_u64_ok by (destruct Hre as (H & _); change (2 ^ 63) with 9223372036854775808 in H; change (2 ^ 64) with 18446744073709551616; cbn [List.length] in *; lia).
      cbn [rbind]. destruct (xnum e =? prev + 1) eqn:E.
      * cbn [rbind]. rewrite Erow. cbn [rbind].
        destruct Hcont as (index & data & E1 & E2).
        { apply consecutive_app. split; [exact Hc|]. cbn [consecutive]. split; [cbn [List.length] in *; lia|exact I]. }
        rewrite E1. cbn [rbind app]. exists index, (row ++ data). split; [reflexivity|exact E2].
      * cbn [rbind]. rewrite Erow. cbn [rbind].
        apply xsorted_app in Hs. destruct Hs as (Hs1 & Hs2 & Hs12). apply Forall_app in Hr. destruct Hr as [Hr1 Hr2].
        apply Forall_app in Hf. destruct Hf as [Hf1 Hf2].
        destruct (IH [e] (xnum e) (xnum e)) as (index & data & E1 & E2); try assumption.
        { cbn; auto. } { intros _. cbn [List.length]. lia. } { discriminate. }
        { rewrite app_length in Hlen. cbn [app List.length] in *. lia. }
        change (N.of_nat (List.length [e])) with (0 + 1) in E1. rewrite E1. cbn [rbind].
        eexists. eexists. split; [reflexivity|]. intros acc Ha. cbn [map app read_stream_index].
        replace (Z.to_nat (Z.of_N (N.of_nat (List.length (x :: p))))) with (List.length (x :: p)) by lia.
        change 0%Z with (Z.of_nat 0). change (x :: p ++ e :: l) with ((x :: p) ++ e :: l) in *.
        rewrite run_read; try assumption; try (rewrite N.add_0_r; assumption).
        -- cbn [rbind]. cbn [rows_of app] in E2. rewrite Erow, app_nil_r in E2. rewrite E2.
           ++ rewrite <- app_assoc, <- map_app. reflexivity.
           ++ apply Forall_app. split.
              ** rewrite Forall_forall in *. intros a Hin. specialize (Ha a Hin). apply Forall_app in Ha. apply Ha.
              ** apply Forall_forall. intros a Hin. apply in_map_iff in Hin. destruct Hin as (b & <- & Hb). rewrite reread_num.
                 rewrite Forall_forall in Hs12. exact (Hs12 b Hb).
        -- rewrite app_length in Hlen. lia.
        -- change (N.of_nat 0) with 0. rewrite N.add_0_r. cbn [consecutive] in Hc. destruct Hc as [<- _].
           rewrite Forall_forall in *. intros a Hin. specialize (Ha a Hin). inversion Ha; subst. assumption.
Qed.

Lemma content_roundtrip : forall w1 w2 w3 t, xsorted t -> Forall entry_in_range t ->
  match t with [] => True | e :: _ => xnum e = 0 end -> (Z.of_nat (List.length t) <= int32_max)%Z ->
  (t <> [] -> (1 <= w1 <= 8)%Z) -> (0 <= w2 <= 8)%Z -> (0 <= w3 <= 8)%Z ->
  exists w2' w3' index data, recalculate_content (w1, w2, w3) t = Ok ((w1, w2', w3'), index, data) /\
    forall size, parse_xref_stream [w1; w2'; w3'] (Some (map Z.of_N index)) size data = Ok (map reread t).
Proof.
  intros w1 w2 w3 t Hs Hr H0 Hlen H1 H2 H3. unfold recalculate_content.
  destruct (max_bytes_ok t 0 0 Hr ltac:(lia) ltac:(lia)) as (m2 & m3 & Em & B2 & B3 & HF). rewrite Em. cbn [rbind].
  destruct (raise_width_ok m2 w2 ltac:(lia) H2) as (w2' & E2 & R2 & L2). destruct (raise_width_ok m3 w3 ltac:(lia) H3) as (w3' & E3 & R3 & L3).
  rewrite E2, E3. cbn [rbind].
  destruct (stream_rows_read (w1, w2', w3') t [] 0 0) as (index & data & Er & Ep); try assumption.
  - cbn [app]. rewrite Forall_forall in *. intros e He. specialize (HF e He). destruct HF as [F2 F3]. unfold fits.
    assert (Ht : t <> []) by (destruct t; [destruct He|discriminate]). specialize (H1 Ht). repeat split; try lia.
    + eapply N.lt_le_trans; [exact F2|]. apply N.pow_le_mono_r; lia.
    + eapply N.lt_le_trans; [exact F3|]. apply N.pow_le_mono_r; lia.
  - exact I.
  - congruence.
  - intros _. destruct t; auto.
  - change (N.of_nat (List.length (@nil xentry))) with 0 in Er. rewrite Er. cbn [rbind].
    exists w2', w3', index, data. split; [reflexivity|]. intros size. cbn [parse_xref_stream]. specialize (Ep [] ltac:(constructor)).
    exact Ep.
Qed.

(** ** the widths the writer chooses *)
Lemma width_for_ok : forall v, v < 2 ^ 64 -> exists w, width_for v = Ok w /\ (0 <= w <= 8)%Z /\ (v <> 0 -> (1 <= w)%Z) /\ v < 256 ^ Z.to_N w.
Proof.
  intros v Hv. destruct (msb_spec v) as (k & E & H1 & H2 & H3). unfold width_for. rewrite E. cbn [rbind].
  eexists. split; [reflexivity|]. assert (Hk := msb_bound v k 64 H2 H3 Hv).
  assert (Hk0 : v <> 0 -> 1 <= k). { intros Hne. destruct (N.eq_dec k 0) as [->|]; [|lia]. cbn in H1. lia. }
  split; [destruct (k mod 8 =? 0) eqn:E8; lia|]. split.
  - intros Hne. specialize (Hk0 Hne). destruct (k mod 8 =? 0) eqn:E8; lia.
  - rewrite pow256. eapply N.lt_le_trans; [exact H1|]. apply N.pow_le_mono_r; [lia|]. destruct (k mod 8 =? 0) eqn:E8; lia.
Qed.

Lemma fold_max_bound : forall (f : xentry -> N) l m b, m < b -> Forall (fun e => f e < b) l ->
  fold_left (fun m e => N.max m (f e)) l m < b.
Proof.
  intros f. induction l as [|e l IH]; intros m b Hm H; cbn [fold_left]; [exact Hm|]. inversion H; subst. apply IH; [lia|assumption].
Qed.

Lemma widths_ok : forall t, Forall entry_in_range t ->
  exists w1 w2 w3, recalculate_widths t = Ok (w1, w2, w3) /\ (t <> [] -> (1 <= w1 <= 8)%Z) /\ (0 <= w2 <= 8)%Z /\ (0 <= w3 <= 8)%Z.
Proof.
  intros t Hr. unfold recalculate_widths.
  assert (Hv : Forall (fun e => fst (field_values e) < 2 ^ 64) t /\ Forall (fun e => snd (field_values e) < 2 ^ 64) t).
  { split; rewrite Forall_forall in *; intros e He; specialize (Hr e He); destruct (range_values e Hr) as [Hv _]; unfold values_small in Hv;
      destruct (field_values e); cbn [fst snd]; change (2 ^ 63) with 9223372036854775808 in Hv; change (2 ^ 64) with 18446744073709551616; lia. }
  destruct Hv as [V2 V3].
  set (f1 := fold_left (fun m (_ : xentry) => N.max m 1) t 0).
  assert (Hf1 : f1 < 2 ^ 64). { unfold f1. apply (fold_max_bound (fun _ => 1)); [reflexivity|]. apply Forall_forall. intros; reflexivity. }
  assert (Hf1' : t <> [] -> f1 <> 0).
  { intros Ht. unfold f1. destruct t as [|e t']; [congruence|]. cbn [fold_left]. change (N.max 0 1) with 1. clear.
    assert (H : forall l m, m <> 0 -> fold_left (fun m (_ : xentry) => N.max m 1) l m <> 0).
    { induction l as [|x l IH]; intros m Hm; cbn [fold_left]; [exact Hm|]. apply IH. lia. }
    apply H. lia. }
  destruct (width_for_ok f1 Hf1) as (w1 & E1 & R1 & N1 & _).
  destruct (width_for_ok _ (fold_max_bound (fun e => fst (field_values e)) t 0 (2 ^ 64) ltac:(reflexivity) V2)) as (w2 & E2 & R2 & _).
  destruct (width_for_ok _ (fold_max_bound (fun e => snd (field_values e)) t 0 (2 ^ 64) ltac:(reflexivity) V3)) as (w3 & E3 & R3 & _).
  rewrite E1. cbn [rbind]. rewrite E2. cbn [rbind]. rewrite E3. cbn [rbind].
  exists w1, w2, w3. split; [reflexivity|]. split; [|auto]. intros Ht. specialize (N1 (Hf1' Ht)). lia.
Qed.

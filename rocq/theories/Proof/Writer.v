(** What the writer prints for a value is a standard text of that value. *)
From Coq Require Import List NArith ZArith Bool Lia String Sorted.
From Verif.Model Require Import Base Char Numbers SMap Object Token Lines Parser.
From Verif.Spec Require Import Strings Grammar.
From Verif.Proof Require Import Tac Numbers Strings SMap Token Parser.
Import ListNotations.
Local Open Scope N_scope.

Lemma digits10_decimal : forall n, Forall decimal_digit (digits 10 n).
Proof.
  intros n. apply digits_forall; [lia|]. intros v Hv. unfold decimal_digit, digit_char. destruct (v <? 10) eqn:E; lia.
Qed.

Lemma decimal_value_digits : forall n, decimal_value (digits 10 n) = n.
Proof.
  intros n. destruct (take_digits_digits 10 n []) as (j & _ & H); [lia|lia|]. specialize (H 0 O).
  rewrite app_nil_r in H. rewrite take_digits_all in H by apply digits10_decimal.
  apply (f_equal fst) in H. cbn [take_digits fst] in H. rewrite H, N.mul_0_l. reflexivity.
Qed.

Lemma decimal_fold : forall b v, fold_left (fun a c => 10 * a + (c - 48)) b v = v * 10 ^ N.of_nat (List.length b) + decimal_value b.
Proof.
  induction b as [|c b IH]; intros v; cbn [fold_left List.length]; [unfold decimal_value; cbn; lia|].
  unfold decimal_value. cbn [fold_left]. rewrite IH, (IH (10 * 0 + (c - 48))).
  rewrite Nat2N.inj_succ, N.pow_succ_r'. lia.
Qed.

Lemma decimal_value_app : forall a b, decimal_value (a ++ b) = decimal_value a * 10 ^ N.of_nat (List.length b) + decimal_value b.
Proof. intros a b. unfold decimal_value at 1. rewrite fold_left_app. apply decimal_fold. Qed.

Lemma decimal_value_zeros : forall k b, decimal_value (repeat 48 k ++ b) = decimal_value b.
Proof.
  intros k b. rewrite decimal_value_app. replace (decimal_value (repeat 48 k)) with 0; [lia|].
  symmetry. induction k as [|k IH]; [reflexivity|]. cbn [repeat]. unfold decimal_value in *. cbn [fold_left]. exact IH.
Qed.

Lemma digits_aux_len : forall k f n acc, n < 10 ^ N.of_nat (S k) ->
  (List.length (digits_aux 10 f n acc) <= S k + List.length acc)%nat.
Proof.
  induction k as [|k IH]; intros f n acc Hn; destruct f as [|f]; cbn [digits_aux]; try lia.
  - change (10 ^ N.of_nat 1) with 10 in Hn. replace (n / 10 =? 0) with true by lia. cbn [List.length]. lia.
  - destruct (n / 10 =? 0) eqn:E; [cbn [List.length]; lia|].
    rewrite Nat2N.inj_succ, N.pow_succ_r' in Hn.
    specialize (IH f (n / 10) (digit_char (n mod 10) :: acc)). cbn [List.length] in IH.
    etransitivity; [apply IH; apply N.div_lt_upper_bound; lia|lia].
Qed.

Lemma digits_len : forall n p, 1 <= p -> n < 10 ^ p -> (List.length (digits 10 n) <= N.to_nat p)%nat.
Proof.
  intros n p Hp Hn. destruct (N.to_nat p) as [|k] eqn:E; [lia|].
  assert (Hk : p = N.of_nat (S k)) by lia. unfold digits.
  assert (H := digits_aux_len k (S (N.size_nat n)) n []). cbn [List.length] in H. rewrite <- Hk in H. specialize (H Hn). lia.
Qed.

Lemma real_text : forall neg m p, 1 <= p -> object_text (real_to_pdf neg m p) (OReal neg m p).
Proof.
  intros neg m p Hp. unfold real_to_pdf. replace (p =? 0) with false by lia. unfold to_string_N.
  set (ip := digits 10 (m / 10 ^ p)). set (fp := pad_zero (N.to_nat p) (digits 10 (m mod 10 ^ p))).
  assert (H10 : 10 ^ p <> 0) by (apply N.pow_nonzero; lia).
  assert (Hl := digits_len (m mod 10 ^ p) p Hp (N.mod_lt m (10 ^ p) H10)).
  assert (Hfl : List.length fp = N.to_nat p). { unfold fp, pad_zero. rewrite app_length, repeat_length. lia. }
  assert (Hv : decimal_value (ip ++ fp) = m).
  { rewrite decimal_value_app, Hfl, N2Nat.id. unfold ip, fp, pad_zero. rewrite decimal_value_zeros, !decimal_value_digits.
    rewrite N.mul_comm. symmetry. apply N.div_mod. exact H10. }
  replace (OReal neg m p) with (OReal neg (decimal_value (ip ++ fp)) (N.of_nat (List.length fp))) by (rewrite Hv, Hfl, N2Nat.id; reflexivity).
  apply ot_real.
  - destruct neg; constructor.
  - intros E. apply app_eq_nil in E. destruct E as [E _]. exact (digits_nonempty _ _ E).
  - apply digits10_decimal.
  - unfold fp, pad_zero. apply Forall_app. split; [|apply digits10_decimal].
    apply Forall_forall. intros c Hc. apply repeat_spec in Hc. rewrite Hc. unfold decimal_digit. lia.
Qed.

Lemma int_text : forall z, (- 2 ^ 63 <= z < 2 ^ 63)%Z -> object_text (to_string_Z z) (OInt z).
Proof.
  intros z Hz. unfold to_string_Z. destruct (z <? 0)%Z eqn:E.
  - assert (H := ot_int [45] true (digits 10 (Z.to_N (- z))) st_minus (digits_nonempty _ _) (digits10_decimal _)).
    rewrite decimal_value_digits in H. cbn [signed app] in H. replace (- Z.of_N (Z.to_N (- z)))%Z with z in H by lia. apply H. exact Hz.
  - assert (H := ot_int [] false (digits 10 (Z.to_N z)) st_none (digits_nonempty _ _) (digits10_decimal _)).
    rewrite decimal_value_digits in H. cbn [signed app] in H. replace (Z.of_N (Z.to_N z)) with z in H by lia. apply H. exact Hz.
Qed.

Lemma gap_app : forall g1 g2, gap g1 -> gap g2 -> gap (g1 ++ g2).
Proof.
  intros g1 g2 H1 H2. induction H1 as [|c g Hc Hg IH|body e g Hb He Hg IH]; cbn [app]; auto.
  - apply gap_white; auto.
  - rewrite <- !app_assoc. apply gap_comment; auto.
Qed.
Lemma items_gap : forall g txt l, gap g -> items_text txt l -> items_text (g ++ txt) l.
Proof.
  intros g txt l Hg H. destruct H as [g' Hg'|g' txt o more l Hg' Ho Hm Hs].
  - constructor. apply gap_app; auto.
  - rewrite app_assoc. constructor; auto. apply gap_app; auto.
Qed.
Lemma entries_gap : forall g txt l, gap g -> entries_text txt l -> entries_text (g ++ txt) l.
Proof.
  intros g txt l Hg H. destruct H.
  - constructor. apply gap_app; auto.
  - rewrite app_assoc. constructor; auto. apply gap_app; auto.
Qed.
Lemma gap_sp : gap [32].
Proof. apply gap_white; [cbn; tauto|constructor]. Qed.

Lemma items_join : forall l, Forall (fun o => object_text (to_pdf o) o) l -> items_text (join_sp (map to_pdf l)) l.
Proof.
  induction l as [|o l IH]; intros H; [constructor; constructor|]. inversion H as [|? ? Ho Hl]; subst.
  destruct l as [|o2 l].
  - cbn [map join_sp]. replace (to_pdf o) with ([] ++ to_pdf o ++ []) by (cbn; apply app_nil_r).
    constructor; [constructor|assumption|constructor; constructor|intros _; exact I].
  - change (join_sp (map to_pdf (o :: o2 :: l))) with ([] ++ to_pdf o ++ ([32] ++ join_sp (map to_pdf (o2 :: l)))).
    constructor; [constructor|assumption|apply items_gap; [exact gap_sp|auto]|intros _; cbn; tauto].
Qed.

Definition print_entry (e : list N * obj) : bytes := (47 :: name_to_string (fst e)) ++ [32] ++ to_pdf (snd e).

Lemma entries_join : forall m, Forall (fun e => all_bytes (fst e) /\ object_text (to_pdf (snd e)) (snd e)) m ->
  entries_text (join_sp (map print_entry m)) m.
Proof.
  induction m as [|[k o] m IH]; intros H; [constructor; constructor|]. inversion H as [|? ? [Hk Ho] Hl]; subst. cbn [fst snd] in *.
  assert (Hn := name_to_string_text k Hk).
  destruct m as [|e2 m].
  - cbn [map join_sp]. unfold print_entry. cbn [fst snd].
    replace ((47 :: name_to_string k) ++ [32] ++ to_pdf o) with ([] ++ (47 :: name_to_string k) ++ [32] ++ to_pdf o ++ []) by (rewrite app_nil_r; reflexivity).
    constructor; [constructor|assumption|exact gap_sp|assumption|constructor; constructor|cbn; tauto|intros _; exact I].
  - change (join_sp (map print_entry ((k, o) :: e2 :: m))) with
      (print_entry (k, o) ++ ([32] ++ join_sp (map print_entry (e2 :: m)))).
    unfold print_entry at 1. cbn [fst snd]. rewrite <- !app_assoc.
    change ((47 :: name_to_string k) ++ [32] ++ to_pdf o ++ [32] ++ join_sp (map print_entry (e2 :: m))) with
      ([] ++ (47 :: name_to_string k) ++ [32] ++ to_pdf o ++ ([32] ++ join_sp (map print_entry (e2 :: m)))).
    constructor; [constructor|assumption|exact gap_sp|assumption|apply entries_gap; [exact gap_sp|auto]|cbn; tauto|intros _; cbn; tauto].
Qed.

Lemma key_lt_irrefl : forall k, ~ key_lt k k.
Proof. intros k H. apply key_lt_ltb in H. rewrite ltb_irrefl in H. discriminate. Qed.

Lemma sorted_content : forall m, keys_sorted m -> Forall (fun e => snd e <> ONull) m -> dict_content m m.
Proof.
  intros m Hs Hn. split; [assumption|]. unfold keys_sorted in Hs.
  induction Hs as [|[k' o'] m Hs IH Ha]; intros k v; cbn [In first_value]; [split; [tauto|discriminate]|].
  inversion Hn as [|? ? Ho Hn']; subst. cbn [snd] in Ho. specialize (IH Hn'). rewrite Forall_forall in Ha.
  destruct (list_eq_dec N.eq_dec k k') as [->|Hne].
  - split.
    + intros [E|Hin]; [inversion E; subst; destruct v; congruence|]. exfalso. apply Ha in Hin. cbn in Hin. exact (key_lt_irrefl _ Hin).
    + intros E. destruct o'; try congruence; left; congruence.
  - rewrite <- IH. split; [intros [E|Hin]; [congruence|exact Hin]|auto].
Qed.

Fixpoint osize (o : obj) : nat :=
  match o with
  | OArr l => S (fold_right (fun o n => osize o + n)%nat O l)
  | ODict m => S (fold_right (fun e n => osize (snd e) + n)%nat O m)
  | OStream m _ => S (fold_right (fun e n => osize (snd e) + n)%nat O m)
  | _ => 1%nat
  end.

Lemma to_pdf_text : forall o, writable o -> object_text (to_pdf o) o.
Proof.
  enough (H : forall k o, (osize o <= k)%nat -> writable o -> object_text (to_pdf o) o) by (intros o Ho; apply (H (osize o)); auto).
  induction k as [|k IH]; intros o Hk Ho; [destruct o; cbn in Hk; lia|].
  destruct Ho as [|b|z Hz|neg m p Hp|n Hn|v Hv|v Hv|num gen Hnum Hgen|l Hl|m Hs Hkeys Hm]; cbn [to_pdf].
  - constructor.
  - destruct b; constructor.
  - apply int_text; assumption.
  - apply real_text; assumption.
  - constructor. apply name_to_string_text; assumption.
  - unfold literal_to_pdf. apply ot_lit. apply literal_written_text; assumption.
  - unfold hex_to_pdf. apply ot_hex. apply hex_written_text; assumption.
  - assert (H := ot_ref (digits 10 num) [32] (digits 10 gen) [32]). rewrite !decimal_value_digits in H.
    apply H; auto using digits_nonempty, digits10_decimal, gap_sp; discriminate.
  - apply ot_arr. apply items_join. cbn [osize] in Hk. assert (Hk' : (fold_right (fun o n => osize o + n)%nat O l <= k)%nat) by lia. clear Hk.
    induction l as [|o l IHl]; [constructor|]. inversion Hl; subst. cbn [fold_right] in Hk'. constructor; [apply IH; [lia|assumption]|apply IHl; [assumption|lia]].
  - apply (ot_dict _ m m).
    + apply entries_join. cbn [osize] in Hk. assert (Hk' : (fold_right (fun e n => osize (snd e) + n)%nat O m <= k)%nat) by (apply le_S_n; exact Hk). clear Hk Hs.
      induction m as [|[k0 o0] m IHm]; [constructor|]. cbn [map snd] in Hm. inversion Hm; inversion Hkeys as [|? ? [Hb _] ?]; subst. cbn [fold_right snd] in Hk'. cbn [fst] in Hb.
      constructor; [split; [assumption|cbn [snd]; apply IH; [lia|assumption]]|apply IHm; [assumption|assumption|lia]].
    + apply sorted_content; [assumption|]. eapply Forall_impl; [|exact Hkeys]. cbn. tauto.
Qed.

Lemma written_reads_back : forall rl o rest, writable o -> object_end rest ->
  parse_direct parser_dictionary rl (to_pdf o ++ rest) = Ok (o, rest).
Proof. intros rl o rest Ho Hr. apply parse_text; [apply to_pdf_text; exact Ho|exact Hr]. Qed.

(** ** the parser terminates on every input *)
Section Total.
Variable d : dictionary.
Variable rl : N -> N -> res Z.
Hypothesis rl_ends : forall n g, rl n g <> NoFuel.

Lemma stoll_nofuel : forall s, stoll s <> NoFuel.
Proof. intros s. unfold stoll. destruct (strtol 10 s); [cif; discriminate|discriminate]. Qed.
Lemma stoi_nofuel : forall b s, stoi b s <> NoFuel.
Proof. intros b s. unfold stoi. destruct (strtol b s); [cif; discriminate|discriminate]. Qed.
Lemma to_uchar_nofuel : forall v, to_uchar v <> NoFuel.
Proof. intros v. unfold to_uchar. cif; [discriminate|cif; discriminate]. Qed.
Lemma hex_pairs_nofuel : forall k s, (List.length s <= k)%nat -> hex_pairs s <> NoFuel.
Proof.
  induction k as [|k IH]; intros s Hk; destruct s as [|a [|b t]]; try discriminate; cbn in Hk; try lia. cbn [hex_pairs].
  apply rbind_nofuel; [apply stoi_nofuel|intros v _]. apply rbind_nofuel; [apply to_uchar_nofuel|intros c _].
  apply rbind_nofuel; [apply IH; lia|discriminate].
Qed.

Lemma read_reference_nofuel : forall z s, read_reference d z s <> NoFuel.
Proof.
  intros z s. unfold read_reference. apply rbind_nofuel; [apply read_token_skip_nofuel|intros [tk1 r1] _].
  cif; [|discriminate]. apply rbind_nofuel; [apply stoll_nofuel|intros gen _].
  apply rbind_nofuel; [apply read_token_skip_nofuel|intros [tk2 r2] _]. cif; [|discriminate].
  apply rbind_nofuel; [unfold to_u64; cif; discriminate|intros ? _].
  apply rbind_nofuel; [unfold to_u16; cif; [discriminate|cif; discriminate]|intros ? _]. discriminate.
Qed.
Lemma read_reference_len : forall z s o r, read_reference d z s = Ok (o, r) -> (List.length r <= List.length s)%nat.
Proof.
  intros z s o r H. unfold read_reference in H. apply rbind_ok in H; destruct H as ([tk1 r1] & H1 & H).
  apply read_token_skip_length in H1. cif_in H; [|inversion H; subst; lia].
  apply rbind_ok in H; destruct H as (gen & _ & H). apply rbind_ok in H; destruct H as ([tk2 r2] & H2 & H).
  apply read_token_skip_length in H2. cif_in H; [|inversion H; subst; lia].
  apply rbind_ok in H; destruct H as (? & _ & H). apply rbind_ok in H; destruct H as (? & _ & H). inversion H; subst.
  destruct H1 as [H1|[_ ->]], H2 as [H2|[_ ->]]; cbn in *; lia.
Qed.
Lemma readline_len : forall s l r e, readline s = (l, r, e) -> (List.length l + List.length r <= List.length s)%nat /\ (e = false -> (List.length r < List.length s)%nat).
Proof.
  induction s as [|c t IH]; intros l r e H; cbn [readline] in H; [inversion H; subst; cbn; split; [lia|discriminate]|].
  cif_in H.
  - assert (G : (exists t', t = 10 :: t' /\ (l, r, e) = ([], t', false)) \/ (l, r, e) = ([], [], true) \/ (l, r, e) = ([], t, false)).
    { destruct t as [|x t']; [auto|]. destruct (N.eq_dec x 10) as [->|Hx]; [inversion H; eauto|].
      right. right. destruct x; [inversion H; auto|]. do 4 (destruct p; try (inversion H; auto; fail)); congruence. }
    destruct G as [(t' & -> & G)|[G|G]]; inversion G; subst; cbn; split; try lia; discriminate.
  - cif_in H; [inversion H; subst; cbn; lia|]. destruct (readline t) as [[l' r'] e'] eqn:E. inversion H; subst.
    destruct (IH _ _ _ eq_refl) as [I1 I2]. cbn [List.length]. split; [lia|]. intros He. specialize (I2 He). lia.
Qed.
Lemma scan_nofuel : forall fuel whole off s, (List.length s < fuel)%nat -> scan_endstream d fuel whole off s <> NoFuel.
Proof.
  induction fuel as [|f IH]; intros whole off s Hf; [lia|]. cbn [scan_endstream].
  destruct (readline s) as [[line r] eof] eqn:E. destruct (readline_len _ _ _ _ E) as [L1 L2].
  destruct (find_sub (str "endstream") line) as [pos|].
  - unfold peek_type_skip. apply rbind_nofuel; [apply rbind_nofuel; [apply read_token_skip_nofuel|intros [? ?] _; discriminate]|intros ty _].
    destruct pos; [|discriminate]. apply rbind_nofuel; [|intros [? ?] _; discriminate].
    unfold expect_skip. apply rbind_nofuel; [apply read_token_skip_nofuel|intros [? ?] _]. cif; discriminate.
  - destruct eof; [discriminate|]. apply IH. specialize (L2 eq_refl). lia.
Qed.
Lemma scan_len : forall fuel whole off s n r, scan_endstream d fuel whole off s = Ok (n, r) -> (List.length r <= List.length s)%nat.
Proof.
  induction fuel as [|f IH]; intros whole off s n r H; [discriminate|]. cbn [scan_endstream] in H.
  destruct (readline s) as [[line r1] eof] eqn:E. destruct (readline_len _ _ _ _ E) as [L1 L2].
  destruct (find_sub (str "endstream") line) as [pos|].
  - apply rbind_ok in H; destruct H as (ty & _ & H). destruct pos; [|inversion H; subst; lia].
    apply rbind_ok in H; destruct H as ([? r2] & H1 & H). inversion H; subst.
    unfold expect_skip in H1. apply rbind_ok in H1; destruct H1 as ([tk r3] & H1 & H2). cif_in H2; [|discriminate]. inversion H2; subst.
    apply read_token_skip_length in H1. destruct H1 as [H1|[_ ->]]; cbn; lia.
  - destruct eof; [discriminate|]. apply IH in H. specialize (L2 eq_refl). lia.
Qed.
Lemma recover_nofuel : forall l s, recover_stream d l s <> NoFuel.
Proof. intros l s. unfold recover_stream. apply rbind_nofuel; [apply scan_nofuel; lia|intros [? ?] _; discriminate]. Qed.
Lemma recover_len : forall l s o r, recover_stream d l s = Ok (o, r) -> (List.length r <= List.length s)%nat.
Proof.
  intros l s o r H. unfold recover_stream in H. apply rbind_ok in H; destruct H as ([n r1] & H1 & H). inversion H; subst.
  apply scan_len in H1. exact H1.
Qed.
Lemma read_stream_tail_nofuel : forall l s, read_stream_tail d rl l s <> NoFuel.
Proof.
  intros l s. unfold read_stream_tail, peek_type_skip, expect_skip, stream_length.
  apply rbind_nofuel; [apply rbind_nofuel; [apply read_token_skip_nofuel|intros [? ?] _; discriminate]|intros ty _].
  cif; [|discriminate]. apply rbind_nofuel.
  { apply rbind_nofuel; [apply read_token_skip_nofuel|intros [? ?] _]. cif; discriminate. }
  intros [? s1] _. apply rbind_nofuel; [apply read_token_nofuel|intros [tk s2] _]. cif; [|discriminate].
  apply rbind_nofuel.
  { destruct (sm_find (str "Length") l) as [[]|]; try discriminate. assert (R := rl_ends num gen).
    destruct (rl num gen) as [|[]| |]; cbn [rbind]; congruence. }
  intros [z|] _; [|apply recover_nofuel]. cif; [apply recover_nofuel|].
  apply rbind_nofuel; [apply read_token_skip_nofuel|intros [tk2 s3] _]. cif; [discriminate|apply recover_nofuel].
Qed.
Lemma read_stream_tail_len : forall l s o r, read_stream_tail d rl l s = Ok (o, r) -> (List.length r <= List.length s)%nat.
Proof.
  intros l s o r H. unfold read_stream_tail in H. apply rbind_ok in H; destruct H as (ty & _ & H).
  cif_in H; [|inversion H; subst; lia]. apply rbind_ok in H; destruct H as ([? s1] & H1 & H).
  unfold expect_skip in H1. apply rbind_ok in H1; destruct H1 as ([tk r1] & H1 & H1').
  cif_in H1'; [|discriminate]. inversion H1'; subst. apply read_token_skip_length in H1.
  apply rbind_ok in H; destruct H as ([tk2 s2] & H2 & H). apply read_token_length in H2. cif_in H; [|discriminate].
  assert (L : (List.length s2 <= List.length s)%nat).
  { destruct H1 as [H1|[_ ->]], H2 as [H2|[_ ->]]; cbn in *; lia. }
  apply rbind_ok in H; destruct H as (len & _ & H). destruct len as [z|]; [|apply recover_len in H; lia]. cif_in H; [apply recover_len in H; lia|].
  apply rbind_ok in H; destruct H as ([tk3 s3] & H3 & H). cif_in H; [|apply recover_len in H; lia]. inversion H; subst.
  apply read_token_skip_length in H3. rewrite skipn_length in H3.
  destruct H3 as [H3|[_ ->]]; cbn in *; lia.
Qed.

Lemma parse_len : forall f,
  (forall s o r, parse_obj d rl f s = Ok (o, r) -> (List.length r < List.length s)%nat) /\
  (forall s l r, parse_array d rl f s = Ok (l, r) -> (List.length r <= List.length s)%nat) /\
  (forall s acc l r, parse_dict d rl f s acc = Ok (l, r) -> (List.length r <= List.length s)%nat).
Proof.
  induction f as [|f (IHo & IHa & IHd)]; [repeat split; intros; discriminate|]. repeat split.
  - intros s o r H. cbn [parse_obj] in H. apply rbind_ok in H; destruct H as ([tk rest] & H1 & H).
    apply read_token_skip_length in H1.
    destruct (fst tk) eqn:Et; try discriminate; destruct H1 as [H1|[E _]]; try congruence;
      try (inversion H; subst; lia);
      try (apply rbind_ok in H; destruct H as (? & _ & H); inversion H; subst; lia).
    + apply rbind_ok in H; destruct H as ([l r1] & H2 & H). apply IHd in H2. apply read_stream_tail_len in H. lia.
    + apply rbind_ok in H; destruct H as ([l r1] & H2 & H). apply IHa in H2. inversion H; subst. lia.
    + apply rbind_ok in H; destruct H as (z & _ & H). apply read_reference_len in H. lia.
  - intros s l r H. cbn [parse_array] in H. apply rbind_ok in H; destruct H as ([tk rest] & H1 & H).
    apply read_token_skip_length in H1. cif_in H.
    + inversion H; subst. destruct H1 as [H1|[_ ->]]; cbn; lia.
    + apply rbind_ok in H; destruct H as ([o r1] & H2 & H). apply IHo in H2. cif_in H; [discriminate|].
      apply rbind_ok in H; destruct H as ([l2 r2] & H3 & H). apply IHa in H3. inversion H; subst. lia.
  - intros s acc l r H. cbn [parse_dict] in H. apply rbind_ok in H; destruct H as ([tk rest] & H1 & H).
    apply read_token_skip_length in H1. cif_in H.
    + inversion H; subst. destruct H1 as [H1|[_ ->]]; cbn; lia.
    + apply rbind_ok in H; destruct H as ([o r1] & H2 & H). apply IHo in H2.
      apply rbind_ok in H; destruct H as ([v r2] & H3 & H). apply IHo in H3.
      assert (G : forall acc, parse_dict d rl f r2 acc = Ok (l, r) -> (List.length r <= List.length s)%nat) by (intros a Ha; apply IHd in Ha; lia).
      destruct v, o; try (eapply G; exact H); try discriminate;
        (match type of H with (if ?b then _ else _) = _ => destruct b end; try discriminate; try (eapply G; exact H)).
Qed.

Lemma parse_total : forall f,
  (forall s, (2 * List.length s + 2 <= f)%nat -> parse_obj d rl f s <> NoFuel) /\
  (forall s, (2 * List.length s + 3 <= f)%nat -> parse_array d rl f s <> NoFuel) /\
  (forall s acc, (2 * List.length s + 3 <= f)%nat -> parse_dict d rl f s acc <> NoFuel).
Proof.
  induction f as [|f (IHo & IHa & IHd)]; [repeat split; intros; lia|]. repeat split.
  - intros s Hs. cbn [parse_obj]. apply rbind_nofuel; [apply read_token_skip_nofuel|intros [tk rest] H1].
    apply read_token_skip_length in H1.
    destruct (fst tk) eqn:Et; try discriminate; destruct H1 as [H1|[E _]]; try congruence.
    + apply rbind_nofuel; [apply IHd; lia|intros [l r] _; apply read_stream_tail_nofuel].
    + apply rbind_nofuel; [apply IHa; lia|intros [l r] _; discriminate].
    + apply rbind_nofuel; [unfold hex_decode; eapply hex_pairs_nofuel; reflexivity|discriminate].
    + apply rbind_nofuel; [apply literal_decode_total|discriminate].
    + apply rbind_nofuel; [apply stoll_nofuel|intros z _; apply read_reference_nofuel].
    + apply rbind_nofuel; [unfold create_real; destruct (real_parts (snd tk)) as [[? ?] ?]; destruct (take_digits 10 _ 0 O) as [? [|?]]; discriminate|discriminate].
  - intros s Hs. cbn [parse_array]. apply rbind_nofuel; [apply read_token_skip_nofuel|intros [tk rest] H1].
    cif; [discriminate|]. apply rbind_nofuel; [apply IHo; lia|intros [o r1] H2]. apply (proj1 (parse_len f)) in H2.
    cif; [discriminate|]. apply rbind_nofuel; [apply IHa; lia|intros [l r2] _; discriminate].
  - intros s acc Hs. cbn [parse_dict]. apply rbind_nofuel; [apply read_token_skip_nofuel|intros [tk rest] H1].
    cif; [discriminate|]. apply rbind_nofuel; [apply IHo; lia|intros [o r1] H2]. apply (proj1 (parse_len f)) in H2.
    apply rbind_nofuel; [apply IHo; lia|intros [v r2] H3]. apply (proj1 (parse_len f)) in H3.
    assert (G : forall acc, parse_dict d rl f r2 acc <> NoFuel) by (intros; apply IHd; lia).
    destruct v, o; try apply G; try discriminate; (match goal with |- (if ?b then _ else _) <> _ => destruct b end; try discriminate; try apply G).
Qed.

Lemma parse_direct_total : forall s, parse_direct d rl s <> NoFuel.
Proof. intros s. apply (proj1 (parse_total _)). lia. Qed.
End Total.

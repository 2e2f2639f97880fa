(** Cross-reference sections: tables and streams. *)
From Coq Require Import List NArith ZArith Bool Lia String Sorted.
From Verif.Model Require Import Base Char Numbers SMap Object Token Parser Arith Xref.
From Verif.Spec Require Import Strings Grammar Xref Arith.
From Verif.Proof Require Import Tac Numbers Strings Token SMap Parser Writer Arith.
Import ListNotations.
Local Open Scope N_scope.

(** ** adding entries *)
Definition xlt (a b : xentry) : Prop := xnum a < xnum b.
Definition xsorted (t : list xentry) : Prop := StronglySorted xlt t.

Lemma xadd_In : forall e t x, In x (xadd e t) -> x = e \/ In x t.
Proof.
  induction t as [|y t IH]; cbn [xadd]; intros x Hx; [destruct Hx as [<-|[]]; auto|].
  destruct (xnum e <? xnum y); [destruct Hx as [<-|Hx]; auto|].
  destruct (xnum e =? xnum y); [destruct Hx as [<-|Hx]; auto; right; right; exact Hx|].
  destruct Hx as [<-|Hx]; [right; left; reflexivity|]. destruct (IH x Hx) as [->|H]; [auto|right; right; exact H].
Qed.

Lemma xadd_sorted : forall e t, xsorted t -> xsorted (xadd e t).
Proof.
  unfold xsorted. induction t as [|y t IH]; intros Hs; cbn [xadd]; [repeat constructor|].
  inversion Hs as [|? ? Hs' Hy]; subst. rewrite Forall_forall in Hy. unfold xlt in Hy.
  destruct (xnum e <? xnum y) eqn:E1.
  - constructor; [exact Hs|]. apply Forall_forall. intros x [<-|Hx]; unfold xlt; [lia|]. specialize (Hy x Hx). lia.
  - destruct (xnum e =? xnum y) eqn:E2.
    + constructor; [exact Hs'|]. apply Forall_forall. intros x Hx. specialize (Hy x Hx). unfold xlt. lia.
    + constructor; [auto|]. apply Forall_forall. intros x Hx. destruct (xadd_In _ _ _ Hx) as [->|H]; unfold xlt; [lia|].
      apply Hy, H.
Qed.

Lemma xadd_find : forall e t n, xsorted t ->
  find (fun x => xnum x =? n) (xadd e t) = if xnum e =? n then Some e else find (fun x => xnum x =? n) t.
Proof.
  unfold xsorted. induction t as [|y t IH]; intros n Hs; cbn [xadd find]; [reflexivity|].
  inversion Hs as [|? ? Hs' Hy]; subst. destruct (xnum e <? xnum y) eqn:E1; [reflexivity|].
  destruct (xnum e =? xnum y) eqn:E2; cbn [find].
  - apply N.eqb_eq in E2. rewrite <- E2. destruct (xnum e =? n); reflexivity.
  - rewrite IH by exact Hs'. destruct (xnum y =? n) eqn:E3, (xnum e =? n) eqn:E4; try reflexivity. lia.
Qed.

Lemma section_sorted : forall es, xsorted (section_of es).
Proof.
  intros es. unfold section_of.
  enough (H : forall t, xsorted t -> xsorted (fold_left (fun t e => xadd e t) es t)) by (apply H; constructor).
  induction es as [|e es IH]; intros t Ht; [exact Ht|]. cbn [fold_left]. apply IH, xadd_sorted, Ht.
Qed.

Lemma section_find : forall es n,
  find (fun x => xnum x =? n) (section_of es) = find (fun x => xnum x =? n) (rev es).
Proof.
  intros es n. unfold section_of. rewrite <- fold_left_rev_right.
  assert (Hs : forall l, xsorted (fold_right (fun e t => xadd e t) [] l)).
  { induction l as [|e l IH]; [constructor|]. cbn [fold_right]. apply xadd_sorted, IH. }
  induction (rev es) as [|e l IH]; [reflexivity|]. cbn [fold_right find]. rewrite xadd_find by apply Hs. rewrite IH. reflexivity.
Qed.

Lemma section_In : forall es x, In x (section_of es) -> In x es.
Proof.
  intros es x. unfold section_of.
  enough (H : forall t, In x (fold_left (fun t e => xadd e t) es t) -> In x es \/ In x t)
    by (intros Hx; destruct (H [] Hx) as [?|[]]; auto).
  induction es as [|e es IH]; intros t Hx; [auto|]. cbn [fold_left] in Hx.
  destruct (IH _ Hx) as [H|H]; [left; right; exact H|]. destruct (xadd_In _ _ _ H) as [->|H']; [left; left; reflexivity|auto].
Qed.

Lemma section_Forall : forall P es, Forall P es -> Forall P (section_of es).
Proof. intros P es H. rewrite Forall_forall in *. intros x Hx. apply H, section_In, Hx. Qed.

Lemma entry_for_section : forall es n, entry_for n (section_of es) = last_added n es.
Proof. intros es n. unfold entry_for, last_added. rewrite section_find. reflexivity. Qed.

(** appending an entry with the largest number *)
Lemma xadd_last : forall e t, Forall (fun x => xnum x < xnum e) t -> xadd e t = t ++ [e].
Proof.
  induction t as [|y t IH]; intros H; [reflexivity|]. inversion H; subst. cbn [xadd app].
  replace (xnum e <? xnum y) with false by lia. replace (xnum e =? xnum y) with false by lia. rewrite IH by assumption. reflexivity.
Qed.

Lemma xsorted_rebuild : forall t, xsorted t -> section_of t = t.
Proof.
  intros t Hs. unfold section_of.
  enough (H : forall l acc, xsorted l -> Forall (fun a => Forall (fun x => xlt a x) l) acc -> fold_left (fun t e => xadd e t) l acc = acc ++ l).
  { apply (H t []); [exact Hs|constructor]. }
  induction l as [|e l IH]; intros acc Hl Ha; cbn [fold_left]; [rewrite app_nil_r; reflexivity|].
  inversion Hl as [|? ? Hl' He]; subst. rewrite xadd_last.
  - rewrite IH; [rewrite <- app_assoc; reflexivity|exact Hl'|]. apply Forall_app. split.
    + rewrite Forall_forall in *. intros a Hi. specialize (Ha a Hi). inversion Ha; subst; assumption.
    + constructor; [exact He|constructor].
  - rewrite Forall_forall in *. intros a Hi. specialize (Ha a Hi). inversion Ha; subst; assumption.
Qed.

(** ** checked addition of numbers *)
Lemma add_u64_ok : forall a b, a + b < 2 ^ 64 -> add_u64 a b = Ok (a + b).
Proof.
  intros a b H. unfold add_u64. change (2 ^ 64) with 18446744073709551616 in H.
  assert (E := add_unsigned uint64_t uint64_t (Z.of_N a) (Z.of_N b)). cbv zeta in E.
  change (common uint64_t uint64_t) with uint64_t in E. cbn [uint64_t bits sgn] in E.
  assert (R : forall v, v < 18446744073709551616 -> rep uint64_t (Z.of_N v)).
  { intros v Hv. unfold rep, representable. cbn [uint64_t bits sgn]. change (2 ^ Z.of_N 64)%Z with 18446744073709551616%Z. lia. }
  fold uint64_t in E. rewrite E; try (apply R; lia); try lia.
  change (2 ^ Z.of_N 64)%Z with 18446744073709551616%Z.
  replace (Z.of_N a + Z.of_N b <? 18446744073709551616)%Z with true by lia. cbn [rbind].
  f_equal. lia.
Qed.

Lemma add_u64_int_ok : forall a b, (0 <= b <= int32_max)%Z -> a + Z.to_N b < 2 ^ 64 -> add_u64_int a b = Ok (a + Z.to_N b).
Proof.
  intros a b Hb H. unfold int32_max in Hb. change (2 ^ 31 - 1)%Z with 2147483647%Z in Hb. unfold add_u64_int.
  change (2 ^ 64) with 18446744073709551616 in H.
  assert (E := add_unsigned uint64_t int32_t (Z.of_N a) b). cbv zeta in E.
  change (common uint64_t int32_t) with uint64_t in E. cbn [uint64_t int32_t bits sgn] in E.
  fold uint64_t in E. fold int32_t in E. rewrite E; try lia.
  - change (2 ^ Z.of_N 64)%Z with 18446744073709551616%Z.
    replace (Z.of_N a + b <? 18446744073709551616)%Z with true by lia. cbn [rbind]. f_equal. lia.
  - unfold rep, representable. cbn [uint64_t bits sgn]. change (2 ^ Z.of_N 64)%Z with 18446744073709551616%Z. lia.
  - unfold rep, representable. cbn [int32_t bits sgn]. change (2 ^ (Z.of_N 32 - 1))%Z with 2147483648%Z. lia.
Qed.

(** ** writing and reading tables *)
Definition forget (e : xentry) : xentry :=
  {| xnum := xnum e; xgen := xgen e;
     xdata := match xdata e with KFree _ => KFree 0 | KUsed o _ => KUsed o true | KComp a b => KComp a b end |}.

Lemma pad_digits : forall w n, exists k, pad_zero w (to_string_N n) = repeat 48 k ++ digits 10 n.
Proof. intros w n. unfold pad_zero, to_string_N. eauto. Qed.

Lemma padded_decimal : forall w n, Forall decimal_digit (pad_zero w (to_string_N n)) /\ pad_zero w (to_string_N n) <> [] /\
  decimal_value (pad_zero w (to_string_N n)) = n.
Proof.
  intros w n. destruct (pad_digits w n) as (k & E). rewrite E. repeat split.
  - apply Forall_app. split; [|apply digits10_decimal]. apply Forall_forall. intros x Hx. apply repeat_spec in Hx. subst.
    unfold decimal_digit. lia.
  - intros C. apply app_eq_nil in C. destruct C as [_ C]. exact (digits_nonempty _ _ C).
  - rewrite decimal_value_zeros. apply decimal_value_digits.
Qed.

Lemma fmt_0_ok : forall w n, fmt_0 w (Z.of_N n) = pad_zero w (to_string_N n).
Proof. intros w n. unfold fmt_0. replace (Z.of_N n <? 0)%Z with false by lia. rewrite N2Z.id. reflexivity. Qed.

Lemma white32 : In 32 pdf_white. Proof. cbn. tauto. Qed.
Lemma white10 : In 10 pdf_white. Proof. cbn. tauto. Qed.

Lemma expect_number : forall d g w n c rest, gap g -> In c pdf_white ->
  expect_skip d TyInt (g ++ pad_zero w (to_string_N n) ++ c :: rest) = Ok (pad_zero w (to_string_N n), c :: rest).
Proof.
  intros d g w n c rest Hg Hc. unfold expect_skip. rewrite skip_gap by exact Hg.
  destruct (padded_decimal w n) as (H1 & H2 & _).
  assert (E := tok_int d [] false _ (c :: rest) st_none H2 H1 (or_introl Hc)). cbn [app] in E. rewrite E. reflexivity.
Qed.

Lemma stoll_padded : forall w n, n < 2 ^ 63 -> stoll (pad_zero w (to_string_N n)) = Ok (Z.of_N n).
Proof.
  intros w n Hn. destruct (padded_decimal w n) as (H1 & H2 & H3).
  assert (E := stoll_decimal [] false _ st_none H2 H1). rewrite H3 in E. cbn [app signed] in E. apply E.
  change (2 ^ 63) with 9223372036854775808 in Hn. change (2 ^ 63)%Z with 9223372036854775808%Z. lia.
Qed.

Lemma stoull_padded : forall w n, n < 2 ^ 64 -> stoull (pad_zero w (to_string_N n)) = Ok n.
Proof.
  intros w n Hn. destruct (padded_decimal w n) as (H1 & H2 & H3).
  assert (E := strtol_decimal [] false _ st_none H2 H1). rewrite H3 in E. cbn [app signed] in E. unfold stoull. rewrite E.
  change (2 ^ 64) with 18446744073709551616 in Hn. change (2 ^ 64)%Z with 18446744073709551616%Z.
  replace (Z.abs (Z.of_N n) <=? 18446744073709551616 - 1)%Z with true by lia.
  rewrite Z.mod_small by lia. rewrite N2Z.id. reflexivity.
Qed.

Lemma letter_token : forall c rest, c = 110 \/ c = 102 ->
  read_token_skip parser_dictionary ([32] ++ [c] ++ [32] ++ [10] ++ rest) = Ok ((TyUnknown, [c]), [32; 10] ++ rest).
Proof.
  intros c rest Hc. change ([32] ++ [c] ++ [32] ++ [10] ++ rest) with (32 :: [c] ++ [32] ++ [10] ++ rest). rewrite skip_white by exact white32.
  change ([c] ++ [32] ++ [10] ++ rest) with ([c] ++ (32 :: 10 :: rest)).
  assert (E : parser_dictionary [c] = TyUnknown) by (destruct Hc; subst; reflexivity).
  rewrite tok_word; [rewrite E; reflexivity| | |left; exact white32|rewrite E; discriminate]; destruct Hc; subst; reflexivity.
Qed.

Lemma row_read : forall e num g rest, entry_in_range e -> not_compressed e -> gap g ->
  read_table_entry parser_dictionary num (g ++ table_row e ++ rest) =
  Ok ({| xnum := num; xgen := xgen e; xdata := xdata (forget e) |}, [32; 10] ++ rest).
Proof.
  intros e num g rest (Hn & Hg & Hd) Hc Hgap. unfold not_compressed in Hc. unfold read_table_entry, table_row, forget. cbn [xdata].
  assert (Hgen : xgen e < 2 ^ 63) by (change (2 ^ 63) with 9223372036854775808; lia).
  assert (Hto : to_u16 (if (65535 <? Z.of_N (xgen e))%Z then 65535%Z else Z.of_N (xgen e)) = Ok (xgen e)).
  { replace (65535 <? Z.of_N (xgen e))%Z with false by lia. unfold to_u16. replace (Z.of_N (xgen e) <? 0)%Z with false by lia.
    replace (Z.of_N (xgen e) <=? 65535)%Z with true by lia. rewrite N2Z.id. reflexivity. }
  destruct (xdata e) as [next|offset used|? ?]; [| |destruct Hc].
  - rewrite !fmt_0_ok. rewrite <- !app_assoc. cbn [app].
    rewrite expect_number by (auto using white32). cbn [rbind].
    change (32 :: pad_zero 5 (to_string_N (xgen e)) ++ 32 :: 102 :: 32 :: 10 :: rest)
      with ([32] ++ pad_zero 5 (to_string_N (xgen e)) ++ 32 :: 102 :: 32 :: 10 :: rest).
    rewrite expect_number by (auto using white32, gap_sp). cbn [rbind].
    rewrite !stoll_padded by assumption. cbn [rbind].
    change (32 :: 102 :: 32 :: 10 :: rest) with ([32] ++ [102] ++ [32] ++ [10] ++ rest).
    rewrite letter_token by auto. cbn [rbind snd]. change (bytes_eqb [102] (str "n")) with false.
    change (bytes_eqb [102] (str "f")) with true. cbv iota. rewrite Hto. reflexivity.
  - destruct Hd as [Ho Hu]. subst used. rewrite !fmt_0_ok. rewrite <- (Z2N.id offset) by lia. rewrite !fmt_0_ok.
    assert (Ho' : Z.to_N offset < 2 ^ 63) by (change (2 ^ 63) with 9223372036854775808; change (2 ^ 63)%Z with 9223372036854775808%Z in Ho; lia).
    rewrite <- !app_assoc. cbn [app].
    rewrite expect_number by (auto using white32). cbn [rbind].
    change (32 :: pad_zero 5 (to_string_N (xgen e)) ++ 32 :: 110 :: 32 :: 10 :: rest)
      with ([32] ++ pad_zero 5 (to_string_N (xgen e)) ++ 32 :: 110 :: 32 :: 10 :: rest).
    rewrite expect_number by (auto using white32, gap_sp). cbn [rbind].
    rewrite !stoll_padded by assumption. cbn [rbind].
    change (32 :: 110 :: 32 :: 10 :: rest) with ([32] ++ [110] ++ [32] ++ [10] ++ rest).
    rewrite letter_token by auto. cbn [rbind snd]. change (bytes_eqb [110] (str "n")) with true. cbv iota.
    rewrite Hto. reflexivity.
Qed.

Lemma gap_row : gap [32; 10].
Proof. apply gap_white; [exact white32|]. apply gap_white; [exact white10|constructor]. Qed.

(** entries numbered from [n] on *)
Fixpoint consecutive (n : N) (l : list xentry) : Prop :=
  match l with
  | [] => True
  | e :: t => xnum e = n /\ consecutive (n + 1) t
  end.

Lemma rows_read : forall l fuel base i g rest acc, (List.length l <= fuel)%nat ->
  Forall entry_in_range l -> Forall not_compressed l -> consecutive (base + i) l -> gap g ->
  Forall (fun x => xnum x < base + i) acc ->
  exists g', gap g' /\ read_rows parser_dictionary fuel base i (i + N.of_nat (List.length l)) (g ++ flat_map table_row l ++ rest) acc =
    Ok (acc ++ map forget l, g' ++ rest).
Proof.
  induction l as [|e l IH]; intros fuel base i g rest acc Hf Hr Hc Hk Hg Ha.
  - exists g. split; [exact Hg|]. cbn [flat_map app map List.length].
    destruct fuel; cbn [read_rows]; replace (i + N.of_nat 0 <=? i) with true by lia; rewrite app_nil_r; reflexivity.
  - destruct fuel as [|fuel]; cbn [List.length] in Hf; [lia|]. cbn [List.length]. cbn [consecutive] in Hk. destruct Hk as [Hn Hk].
    inversion Hr as [|? ? Hre Hrl]; subst. inversion Hc as [|? ? Hce Hcl]; subst.
    cbn [read_rows]. replace (i + N.of_nat (S (List.length l)) <=? i) with false by lia.
    rewrite add_u64_ok by (rewrite <- Hn; destruct Hre as (H & _); change (2 ^ 63) with 9223372036854775808 in H; change (2 ^ 64) with 18446744073709551616; lia).
    cbn [rbind flat_map]. rewrite <- app_assoc. rewrite row_read by assumption. cbn [rbind].
    assert (Ef : {| xnum := base + i; xgen := xgen e; xdata := xdata (forget e) |} = forget e).
    { rewrite <- Hn. reflexivity. }
    rewrite Ef. assert (Et : table_add (forget e) acc = Ok (acc ++ [forget e])).
    { unfold table_add. unfold not_compressed in Hce. unfold forget at 1. cbn [xdata].
      rewrite xadd_last; [destruct (xdata e); [reflexivity|reflexivity|destruct Hce]|].
      unfold forget; cbn [xnum]. rewrite Hn. exact Ha. }
    rewrite Et. cbn [rbind].
    destruct (IH fuel base (i + 1) [32; 10] rest (acc ++ [forget e])) as (g' & Hg' & E); try assumption; try lia.
    + replace (base + (i + 1)) with (base + i + 1) by lia. exact Hk.
    + exact gap_row.
    + apply Forall_app. split; [|constructor; [unfold forget; cbn [xnum]; lia|constructor]].
      rewrite Forall_forall in *. intros x Hx. specialize (Ha x Hx). lia.
    + exists g'. split; [exact Hg'|]. replace (i + N.of_nat (S (List.length l))) with (i + 1 + N.of_nat (List.length l)) by lia.
      rewrite E. rewrite <- app_assoc. reflexivity.
Qed.

Lemma run_length_ok : forall l idx j, xsorted l -> Forall entry_in_range l -> Forall (fun e => idx + j <= xnum e) l ->
  exists k : nat, (k <= List.length l)%nat /\ run_length idx j l = Ok (j + N.of_nat k) /\ consecutive (idx + j) (firstn k l).
Proof.
  induction l as [|e l IH]; intros idx j Hs Hr Ha; cbn [run_length].
  - exists O. split; [lia|]. split; [f_equal; lia|exact I].
  - inversion Hr as [|? ? Hre Hrl]; subst. inversion Ha as [|? ? Hae _]; subst. inversion Hs as [|? ? Hs' Hlt]; subst.
    rewrite add_u64_ok by (destruct Hre as (H & _); change (2 ^ 63) with 9223372036854775808 in H; change (2 ^ 64) with 18446744073709551616; lia).
    cbn [rbind]. destruct (xnum e =? idx + j) eqn:E.
    + destruct (IH idx (j + 1)) as (k & Hk & Ek & Hck); [exact Hs'|exact Hrl| |].
      * rewrite Forall_forall in *. intros x Hx. specialize (Hlt x Hx). unfold xlt in Hlt. lia.
      * exists (S k). split; [cbn [List.length]; lia|]. split; [rewrite Ek; f_equal; lia|]. cbn [firstn consecutive].
        split; [lia|]. replace (idx + j + 1) with (idx + (j + 1)) by lia. exact Hck.
    + exists O. split; [lia|]. split; [f_equal; lia|exact I].
Qed.

Lemma row_nonempty : forall e, entry_in_range e -> not_compressed e -> (1 <= List.length (table_row e))%nat.
Proof.
  intros e (_ & _ & Hd) Hc. unfold table_row. unfold not_compressed in Hc.
  destruct (xdata e) as [next|o u|? ?]; [| |destruct Hc].
  - rewrite !app_length. cbn. lia.
  - destruct Hd as [_ ->]. rewrite !app_length. cbn. lia.
Qed.
Lemma rows_length : forall l, Forall entry_in_range l -> Forall not_compressed l ->
  (List.length l <= List.length (flat_map table_row l))%nat.
Proof.
  induction l as [|e l IH]; intros Hr Hc; [cbn; lia|]. inversion Hr; subst. inversion Hc; subst.
  cbn [flat_map List.length]. rewrite app_length. specialize (IH ltac:(assumption) ltac:(assumption)).
  assert (H := row_nonempty e ltac:(assumption) ltac:(assumption)). lia.
Qed.

Lemma xsorted_app : forall a b, xsorted (a ++ b) -> xsorted a /\ xsorted b /\ Forall (fun x => Forall (xlt x) b) a.
Proof.
  unfold xsorted. induction a as [|x a IH]; intros b H; cbn [app] in H; [repeat constructor; exact H|].
  inversion H as [|? ? H1 H2]; subst. destruct (IH b H1) as (Ha & Hb & Hc). apply Forall_app in H2. destruct H2 as [H2 H3].
  split; [constructor; assumption|]. split; [exact Hb|]. constructor; assumption.
Qed.

Lemma subsections_read : forall fuel l g rest acc rfuel, (List.length l <= fuel)%nat -> (List.length l < rfuel)%nat ->
  xsorted l -> Forall entry_in_range l -> Forall not_compressed l -> gap g ->
  Forall (fun a => Forall (fun x => xnum a < xnum x) l) acc ->
  token_ends rest ->
  exists text g', gap g' /\ write_subsections fuel l = Ok text /\
    read_subsections parser_dictionary rfuel (g ++ text ++ str "trailer" ++ rest) acc = Ok (acc ++ map forget l, g' ++ str "trailer" ++ rest).
Proof.
  induction fuel as [|fuel IH]; intros l g rest acc rfuel Hf Hrf Hs Hr Hc Hg Ha Hrest.
  - destruct l as [|e l]; cbn [List.length] in Hf; [|lia]. exists [], g. split; [exact Hg|]. split; [reflexivity|].
    destruct rfuel as [|rfuel]; [cbn in Hrf; lia|]. cbn [read_subsections app map].
    unfold peek_type_skip. rewrite skip_gap by exact Hg.
    rewrite tok_keyword by (cbn; tauto || exact Hrest). cbn [rbind fst]. change (ttype_eqb (parser_dictionary (str "trailer")) TyTrailer) with true.
    cbv iota. rewrite app_nil_r. reflexivity.
  - destruct l as [|e l].
    { exists [], g. split; [exact Hg|]. split; [reflexivity|].
      destruct rfuel as [|rfuel]; [cbn in Hrf; lia|]. cbn [read_subsections app map].
      unfold peek_type_skip. rewrite skip_gap by exact Hg.
      rewrite tok_keyword by (cbn; tauto || exact Hrest). cbn [rbind fst]. change (ttype_eqb (parser_dictionary (str "trailer")) TyTrailer) with true.
      cbv iota. rewrite app_nil_r. reflexivity. }
    inversion Hs as [|? ? Hs' Hlt]; subst. inversion Hr as [|? ? Hre Hrl]; subst. inversion Hc as [|? ? Hce Hcl]; subst.
    destruct (run_length_ok l (xnum e) 1) as (k & Hk & Ek & Hck); [exact Hs'|exact Hrl| |].
    { rewrite Forall_forall in *. intros x Hx. specialize (Hlt x Hx). unfold xlt in Hlt. lia. }
    set (l1 := e :: firstn k l). set (l2 := skipn k l).
    assert (Hl : e :: l = l1 ++ l2) by (unfold l1, l2; cbn [app]; rewrite firstn_skipn; reflexivity).
    assert (Hl1 : N.to_nat (1 + N.of_nat k) = S k) by lia.
    assert (Hlen1 : List.length l1 = S k) by (unfold l1; cbn [List.length]; rewrite firstn_length; lia).
    assert (Hlen2 : (List.length l2 <= List.length l)%nat) by (unfold l2; rewrite skipn_length; lia).
    rewrite Hl in Hs, Hr, Hc, Ha. apply xsorted_app in Hs. destruct Hs as (Hs1 & Hs2 & Hs12).
    apply Forall_app in Hr. destruct Hr as [Hr1 Hr2]. apply Forall_app in Hc. destruct Hc as [Hc1 Hc2].
    assert (Hcons : consecutive (xnum e + 0) l1).
    { unfold l1. cbn [consecutive]. split; [lia|]. replace (xnum e + 0 + 1) with (xnum e + 1) by lia. exact Hck. }
    assert (Hacc1 : Forall (fun x => xnum x < xnum e + 0) acc).
    { rewrite Forall_forall in *. intros x Hx. specialize (Ha x Hx). unfold l1 in Ha. cbn [app] in Ha. inversion Ha; subst. lia. }
    destruct rfuel as [|rfuel]; [cbn in Hrf; lia|]. cbn [List.length] in Hf, Hrf.
    assert (IH' := fun g1 => IH l2 g1 rest (acc ++ map forget l1) rfuel).
    cbn [write_subsections]. rewrite Ek. cbn [rbind]. rewrite Hl1. cbn [skipn firstn]. fold l2. fold l1.
    (* rows *)
    assert (Hrows : forall tl, exists g1, gap g1 /\
      read_rows parser_dictionary (S (List.length (10 :: flat_map table_row l1 ++ tl))) (xnum e) 0 (1 + N.of_nat k)
        (10 :: flat_map table_row l1 ++ tl) acc = Ok (acc ++ map forget l1, g1 ++ tl)).
    { intros tl. destruct (rows_read l1 (S (List.length (10 :: flat_map table_row l1 ++ tl))) (xnum e) 0 [10] tl acc)
        as (g1 & Hg1 & E1); try assumption.
      - cbn [List.length]. rewrite app_length. assert (H := rows_length l1 Hr1 Hc1). lia.
      - apply gap_white; [exact white10|constructor].
      - exists g1. split; [exact Hg1|]. replace (0 + N.of_nat (List.length l1)) with (1 + N.of_nat k) in E1 by lia. exact E1. }
    assert (Hacc2 : Forall (fun a => Forall (fun x => xnum a < xnum x) l2) (acc ++ map forget l1)).
    { apply Forall_app. split.
      - rewrite Forall_forall in *. intros a Hi. specialize (Ha a Hi). apply Forall_app in Ha. apply Ha.
      - apply Forall_forall. intros a Hi. apply in_map_iff in Hi. destruct Hi as (b & <- & Hb). rewrite Forall_forall in Hs12.
        unfold forget. cbn [xnum]. exact (Hs12 b Hb). }
    destruct (IH l2 [] rest (acc ++ map forget l1) rfuel) as (text2 & g2 & _ & Etext & _); try assumption; try lia; [constructor|].
    exists (to_string_N (xnum e) ++ [32] ++ to_string_N (1 + N.of_nat k) ++ [10] ++ flat_map table_row l1 ++ text2).
    destruct (Hrows (text2 ++ str "trailer" ++ rest)) as (g1 & Hg1 & Erows).
    destruct (IH l2 g1 rest (acc ++ map forget l1) rfuel) as (text3 & g3 & Hg3 & Etext3 & Eread); try assumption; try lia.
    rewrite Etext in Etext3. inversion Etext3; subst text3.
    exists g3. split; [exact Hg3|]. rewrite Etext. split; [reflexivity|].
    cbn [read_subsections]. unfold peek_type_skip. rewrite <- !app_assoc.
    assert (Hpad : forall n, to_string_N n = pad_zero 0 (to_string_N n)) by reflexivity.
    destruct (padded_decimal 0 (xnum e)) as (P1 & P2 & _). rewrite <- Hpad in P1, P2.
    rewrite skip_gap by exact Hg.
    assert (Etok := tok_int parser_dictionary [] false (to_string_N (xnum e))
      (32 :: to_string_N (1 + N.of_nat k) ++ [10] ++ flat_map table_row l1 ++ text2 ++ str "trailer" ++ rest) st_none P2 P1
      (or_introl white32)). cbn [app] in Etok. cbn [app]. rewrite Etok. cbn [rbind fst ttype_eqb].
    rewrite (Hpad (xnum e)). rewrite expect_number by (auto using white32). cbn [rbind].
    change (32 :: to_string_N (1 + N.of_nat k) ++ 10 :: flat_map table_row l1 ++ text2 ++ str "trailer" ++ rest)
      with ([32] ++ to_string_N (1 + N.of_nat k) ++ 10 :: flat_map table_row l1 ++ text2 ++ str "trailer" ++ rest).
    rewrite (Hpad (1 + N.of_nat k)). rewrite expect_number by (auto using white10, gap_sp). cbn [rbind].
    assert (Hb1 : xnum e < 2 ^ 63) by apply Hre.
    rewrite !stoull_padded.
    + cbn [rbind]. change (str "trailer" ++ rest) with (str "trailer" ++ rest) in Erows. rewrite Erows. cbn [rbind].
      rewrite Eread. rewrite <- app_assoc. rewrite <- map_app, <- Hl. reflexivity.
    + assert (Hlast : consecutive (xnum e) l1) by (rewrite N.add_0_r in Hcons; exact Hcons).
      assert (Hnum : forall l n, consecutive n l -> Forall entry_in_range l -> l <> [] -> n + N.of_nat (List.length l) <= 2 ^ 63).
      { clear. induction l as [|x l IHl]; intros n Hcc Hrr Hne; [congruence|]. cbn [consecutive] in Hcc. destruct Hcc as [H1 H2].
        inversion Hrr as [|? ? Hx Hrr']; subst. destruct l as [|y l].
        - cbn [List.length]. destruct Hx as (Hx & _). change (2 ^ 63) with 9223372036854775808 in *. lia.
        - specialize (IHl (xnum x + 1) H2 Hrr' ltac:(discriminate)). cbn [List.length] in *. lia. }
      assert (H := Hnum l1 (xnum e) Hlast Hr1). rewrite Hlen1 in H. specialize (H ltac:(unfold l1; discriminate)).
      change (2 ^ 63) with 9223372036854775808 in H. change (2 ^ 64) with 18446744073709551616. lia.
    + change (2 ^ 63) with 9223372036854775808 in Hb1. change (2 ^ 64) with 18446744073709551616. lia.
Qed.

Lemma parse_gap_text : forall rl g txt o rest, gap g -> object_text txt o -> object_end rest ->
  parse_direct parser_dictionary rl ((g ++ txt) ++ rest) = Ok (o, rest).
Proof.
  intros rl g txt o rest Hg Ho Hr. apply object_end_look in Hr. destruct Hr as [Hl Ht]. unfold parse_direct.
  rewrite <- app_assoc.
  assert (E : forall f, parse_obj parser_dictionary rl f (g ++ txt ++ rest) = parse_obj parser_dictionary rl f (txt ++ rest)).
  { intros f. destruct f as [|f]; [reflexivity|]. cbn [parse_obj]. rewrite skip_gap by exact Hg. reflexivity. }
  rewrite E. apply (proj1 (reads_text rl)); [exact Ho| |split; auto]. rewrite !app_length. lia.
Qed.

Lemma table_roundtrip : forall rl t m rest, xsorted t -> Forall entry_in_range t -> Forall not_compressed t ->
  writable (ODict m) -> object_end (10 :: rest) ->
  exists text, write_xref_table t (ODict m) = Ok text /\
    read_xref_table parser_dictionary rl (text ++ rest) = Ok (map forget t, ODict m, 10 :: rest).
Proof.
  intros rl t m rest Hs Hr Hc Hw He. unfold write_xref_table, read_xref_table.
  assert (Hte : token_ends ([10] ++ to_pdf (ODict m) ++ [10] ++ rest)) by (left; exact white10).
  destruct (subsections_read (List.length t) t [10] ([10] ++ to_pdf (ODict m) ++ [10] ++ rest) []
     (S (List.length t)) (le_n _) ltac:(lia) Hs Hr Hc) as (text & g' & Hg' & Et & _);
    [apply gap_white; [exact white10|constructor]|constructor|exact Hte|].
  rewrite Et. cbn [rbind]. eexists. split; [reflexivity|].
  unfold expect_skip at 1. rewrite <- !app_assoc.
  rewrite tok_keyword by (cbn; tauto || (left; exact white10)). cbn [rbind fst snd].
  change (ttype_eqb (parser_dictionary (str "xref")) TyXref) with true. cbv iota. cbn [rbind].
  destruct (subsections_read (List.length t) t [10] ([10] ++ to_pdf (ODict m) ++ [10] ++ rest) []
     (S (List.length ([10] ++ text ++ str "trailer" ++ [10] ++ to_pdf (ODict m) ++ [10] ++ rest))) (le_n _)) as (text' & g2 & Hg2 & Et2 & Er2);
    try assumption.
  - assert (Hlen : forall f l txt, (List.length l <= f)%nat -> write_subsections f l = Ok txt -> Forall entry_in_range l -> Forall not_compressed l -> (List.length l <= List.length txt)%nat).
    { clear. induction f as [|f IHf]; intros l txt Hf H Hr Hc; destruct l as [|e l]; cbn [write_subsections] in H;
        try (cbn in Hf; lia); try (inversion H; subst; cbn; lia).
      apply rbind_ok in H; destruct H as (n & Hn & H). apply rbind_ok in H; destruct H as (r & Hr' & H). inversion H; subst. clear H.
      assert (Hsplit := firstn_skipn (N.to_nat n) (e :: l)).
      assert (Hpos : forall l idx j n, run_length idx j l = Ok n -> j <= n).
      { clear. induction l as [|x l IHl]; intros idx j n H; cbn [run_length] in H; [inversion H; lia|].
        apply rbind_ok in H; destruct H as (q & _ & H). cif_in H; [apply IHl in H; lia|inversion H; lia]. }
      apply Hpos in Hn. 
      assert (Hs2 : (List.length (skipn (N.to_nat n) (e :: l)) <= f)%nat). { rewrite skipn_length. cbn [List.length] in *. lia. }
      rewrite <- Hsplit in Hr, Hc. apply Forall_app in Hr. apply Forall_app in Hc. destruct Hr, Hc.
      apply IHf in Hr'; try assumption.
      assert (Hrows := rows_length (firstn (N.to_nat n) (e :: l)) ltac:(assumption) ltac:(assumption)).
      apply (f_equal (@List.length _)) in Hsplit. rewrite app_length in Hsplit. repeat (rewrite app_length; cbn [List.length]). cbn [List.length] in Hsplit. lia. }
    specialize (Hlen _ _ _ (le_n _) Et Hr Hc). rewrite !app_length. lia.
  - apply gap_white; [exact white10|constructor].
  - constructor.
  - rewrite Et in Et2. inversion Et2; subst text'. rewrite Er2. cbn [rbind].
    unfold expect_skip. rewrite skip_gap by exact Hg2. rewrite tok_keyword by (cbn; tauto || exact Hte). cbn [rbind fst snd].
    change (ttype_eqb (parser_dictionary (str "trailer")) TyTrailer) with true. cbv iota. cbn [rbind].
    change ([10] ++ to_pdf (ODict m) ++ [10] ++ rest) with (([10] ++ to_pdf (ODict m)) ++ [10] ++ rest).
    assert (Ep : parse_direct parser_dictionary rl ([10] ++ to_pdf (ODict m) ++ 10 :: rest) = Ok (ODict m, 10 :: rest)).
    { rewrite app_assoc. apply parse_gap_text; [apply gap_white; [exact white10|constructor]|apply to_pdf_text; exact Hw|exact He]. }
    cbn [app] in *. rewrite Ep. reflexivity.
Qed.

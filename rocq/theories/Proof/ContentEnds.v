(** When the content stream parser ends. *)
From Coq Require Import List NArith ZArith Bool String Lia ZifyBool ZifyNat ZifyN.
From Coq Require Import List.
From Verif.Model Require Import Base Char Numbers SMap Object Token Parser Content.
From Verif.Spec Require Import Strings Grammar Content.
From Verif.Proof Require Import Tac Strings SMap Token ParserAny Writer CharMap Content ContentWrite.
Import ListNotations.
Local Open Scope N_scope.

(** ** what remains is a suffix *)
Definition sfx (r s : list N) : Prop := exists p, s = p ++ r.
Definition holds (w s : list N) : Prop := exists a b, s = a ++ w ++ b.
Lemma sfx_refl : forall s, sfx s s. Proof. intros s. exists []. reflexivity. Qed.
Lemma sfx_trans : forall a b c, sfx a b -> sfx b c -> sfx a c.
Proof. intros a b c (p & ->) (q & ->). exists (q ++ p). apply app_assoc. Qed.
Lemma sfx_cons : forall c a b, sfx a b -> sfx a (c :: b).
Proof. intros c a b (p & ->). exists (c :: p). reflexivity. Qed.
Lemma sfx_nil : forall s, sfx [] s. Proof. intros s. exists s. symmetry. apply app_nil_r. Qed.
Lemma sfx_holds : forall w a b, sfx a b -> holds w a -> holds w b.
Proof. intros w a b (p & ->) (x & y & ->). exists (p ++ x), y. rewrite <- app_assoc. reflexivity. Qed.
Lemma holds_cons : forall w c s, holds w s -> holds w (c :: s).
Proof. intros w c s H. eapply sfx_holds; [|exact H]. apply sfx_cons, sfx_refl. Qed.
Lemma sfx_len : forall a b, sfx a b -> (List.length a <= List.length b)%nat.
Proof. intros a b (p & ->). rewrite app_length. lia. Qed.

Lemma span_sfx : forall (f : N -> bool) s a b, span f s = (a, b) -> s = a ++ b.
Proof.
  intros f. induction s as [|c s IH]; intros a b H; cbn [span] in H; [inversion H; reflexivity|]. destruct (f c); [|inversion H; reflexivity].
  destruct (span f s) as [x y] eqn:E. inversion H; subst. cbn [app]. f_equal. auto.
Qed.

Lemma read_name_sfx : forall k s n rest, (List.length s <= k)%nat -> read_name s = Ok (n, rest) -> sfx rest s.
Proof.
  induction k as [|k IH]; intros s n rest Hk H; destruct s as [|c t]; cbn in Hk; try lia; try (inversion H; subst; apply sfx_refl).
  cbn [read_name] in H. destruct (is_regular c); [|inversion H; subst; apply sfx_refl].
  destruct (c =? 35).
  - destruct t as [|a [|b t']].
    + apply rbind_ok in H; destruct H as (? & _ & H). apply rbind_ok in H; destruct H as (? & _ & H). inversion H; subst. apply sfx_nil.
    + apply rbind_ok in H; destruct H as (? & _ & H). apply rbind_ok in H; destruct H as (? & _ & H). inversion H; subst. apply sfx_nil.
    + apply rbind_ok in H; destruct H as (? & _ & H). apply rbind_ok in H; destruct H as (? & _ & H).
      apply rbind_ok in H; destruct H as ([cs r] & H1 & H). inversion H; subst. apply IH in H1; [|cbn in *; lia]. do 3 apply sfx_cons. exact H1.
  - apply rbind_ok in H; destruct H as ([cs r] & H1 & H). inversion H; subst. apply IH in H1; [|cbn in *; lia]. apply sfx_cons. exact H1.
Qed.
Lemma read_hex_sfx : forall s v rest, read_hex s = Ok (v, rest) -> sfx rest s.
Proof.
  induction s as [|c t IH]; intros v rest H; cbn [read_hex] in H; [inversion H; subst; apply sfx_refl|].
  destruct (c =? 62); [inversion H; subst; apply sfx_cons, sfx_refl|].
  destruct (is_white c); [apply IH in H; apply sfx_cons; exact H|].
  destruct (is_numeric c || is_alpha c); [|discriminate].
  apply rbind_ok in H; destruct H as ([cs r] & H1 & H). inversion H; subst. apply IH in H1. apply sfx_cons; exact H1.
Qed.
Lemma read_literal_sfx : forall s n b v rest, read_literal n b s = Ok (v, rest) -> sfx rest s.
Proof.
  induction s as [|c t IH]; intros n b v rest H; cbn [read_literal] in H; [discriminate|]. destruct b.
  - apply rbind_ok in H; destruct H as ([cs r] & H1 & H). inversion H; subst. apply IH in H1. apply sfx_cons; exact H1.
  - destruct ((c =? 41) && (n =? 1)); [inversion H; subst; apply sfx_cons, sfx_refl|].
    apply rbind_ok in H; destruct H as ([cs r] & H1 & H). inversion H; subst. apply IH in H1. apply sfx_cons; exact H1.
Qed.

Definition stands (tk : token) (s : list N) : Prop := is_operand (fst tk) = true \/ (snd tk = [] /\ forall w, fst tk <> TyKw w) \/ (holds (snd tk) s /\ fst tk = d (snd tk)).
Ltac fin := split; [auto|first [left; reflexivity|right; left; split; [reflexivity|discriminate]]].
Lemma token_aux_sfx : forall k s comment tk rest, (List.length s <= k)%nat -> read_token_aux d comment s = Ok (tk, rest) ->
  sfx rest s /\ stands tk s.
Proof.
  unfold stands. induction k as [|k IH]; intros s comment tk rest Hk H; destruct s as [|c t]; cbn in Hk; try lia;
    try (cbn in H; inversion H; subst; split; [apply sfx_refl|right; left; split; [reflexivity|discriminate]]; fail).
  assert (IH' : forall t' cm, read_token_aux d cm t' = Ok (tk, rest) -> sfx t' t ->
     sfx rest (c :: t) /\ (is_operand (fst tk) = true \/ (snd tk = [] /\ forall w, fst tk <> TyKw w) \/ (holds (snd tk) (c :: t) /\ fst tk = d (snd tk)))).
  { intros t' cm H1 H2. assert (Hl := sfx_len _ _ H2). destruct (IH t' cm tk rest) as [I1 I2]; [lia|exact H1|]. split.
    - apply sfx_cons. eapply sfx_trans; eauto.
    - destruct I2 as [I2|[I2|[I2 I3]]]; auto. right. right. split; [|exact I3]. apply holds_cons. eapply sfx_holds; eauto. }
  assert (Hc : forall ty : ttype, match ty with TyKw _ => False | _ => True end -> forall w, ty <> TyKw w) by (intros ty X w ->; exact X).
  assert (Hr := sfx_refl t).
  cbn [read_token_aux] in H.
  destruct comment.
  { destruct (c =? 13).
    - destruct (match10 (A := res (token * bytes)) t (fun t' => read_token_aux d false t') (read_token_aux d false t)) as [(t' & Et' & E)|[_ E]]; rewrite E in H;
        eapply IH'; eauto. rewrite Et'. apply sfx_cons, sfx_refl.
    - destruct (c =? 10); eapply IH'; eauto. }
  destruct ((c =? 32) || (c =? 12) || (c =? 9) || (c =? 0)); [eapply IH'; eauto|].
  destruct (c =? 37); [eapply IH'; eauto|]. clear IH IH'.
  assert (Hrt : forall t', sfx t' t -> sfx t' (c :: t)) by (intros; apply sfx_cons; assumption).
  destruct (c =? 10); [inversion H; subst tk rest; fin|].
  destruct (c =? 13).
  { destruct (match10 (A := res (token * bytes)) t (fun t' => Ok ((TyEol, @nil N), t')) (Ok ((TyEol, []), t))) as [(t' & Et' & E)|[_ E]]; rewrite E in H;
      inversion H; subst tk rest; fin. apply Hrt. rewrite Et'. apply sfx_cons, sfx_refl. }
  destruct (c =? 62).
  { destruct (match62 (A := res (token * bytes)) t (fun t' => Ok ((TyDictEnd, @nil N), t')) (Throw EGeneral)) as [(t' & Et' & E)|E]; rewrite E in H;
      [|discriminate]. inversion H; subst tk rest; fin. apply Hrt. rewrite Et'. apply sfx_cons, sfx_refl. }
  destruct (c =? 60).
  { destruct (match60_62 (A := res (token * bytes)) t (fun t' => Ok ((TyDictBegin, @nil N), t')) (fun t' => Ok ((TyHex, @nil N), t'))
       (do '(cs, rest0) <- read_hex t;; Ok ((TyHex, cs), rest0))) as [(t' & Et' & E)|[(t' & Et' & E)|E]]; rewrite E in H.
    - inversion H; subst tk rest; fin. apply Hrt. rewrite Et'. apply sfx_cons, sfx_refl.
    - inversion H; subst tk rest; fin. apply Hrt. rewrite Et'. apply sfx_cons, sfx_refl.
    - apply rbind_ok in H; destruct H as ([cs r] & H1 & H). inversion H; subst tk rest; fin. apply Hrt. eapply read_hex_sfx; eauto. }
  destruct (c =? 91); [inversion H; subst tk rest; fin|].
  destruct (c =? 93); [inversion H; subst tk rest; fin|].
  destruct (c =? 47).
  { apply rbind_ok in H; destruct H as ([cs r] & H1 & H). inversion H; subst tk rest; fin. apply Hrt. eapply read_name_sfx; [reflexivity|eauto]. }
  destruct (c =? 40).
  { apply rbind_ok in H; destruct H as ([cs r] & H1 & H). inversion H; subst tk rest; fin. apply Hrt. eapply read_literal_sfx; eauto. }
  unfold read_unknown in H. destruct (is_numeric c || (c =? 43) || (c =? 45) || (c =? 46)).
  - destruct (span is_numeric t) as [ds s1] eqn:E. apply span_sfx in E. assert (Hs1 : sfx s1 t) by (exists ds; exact E).
    destruct (c =? 46); [inversion H; subst tk rest; fin|].
    assert (G : (exists x, sfx x t /\ rest = x) /\ is_operand (fst tk) = true).
    { clear - H Hs1. destruct s1 as [|x s2]; [inversion H; subst tk rest; split; eauto|].
      destruct x as [|p]; [inversion H; subst tk rest; split; eauto|].
      do 6 (destruct p as [p|p|]; try (inversion H; subst tk rest; split; [eauto|reflexivity])).
      destruct (span is_numeric s2) as [ds2 s3] eqn:E2. apply span_sfx in E2. inversion H; subst tk rest. split; [|reflexivity]. exists s3. split; [|reflexivity].
      eapply sfx_trans; [|exact Hs1]. apply sfx_cons. exists ds2. exact E2. }
    destruct G as [(x & Hx & ->) G]. auto.
  - destruct (span is_regular t) as [cs s1] eqn:E. apply span_sfx in E. inversion H; subst tk rest. split; [apply Hrt; exists cs; exact E|].
    right. right. split; [|reflexivity]. exists [], s1. cbn [app snd]. congruence.
Qed.
Lemma token_skip_sfx : forall s tk rest, rts s = Ok (tk, rest) -> sfx rest s /\ stands tk s.
Proof.
  enough (G : forall k s tk rest, (List.length s <= k)%nat -> rts s = Ok (tk, rest) -> sfx rest s /\ stands tk s) by (intros s tk rest; apply (G (List.length s)); lia).
  induction k as [|k IH]; intros s tk rest Hk H; rewrite read_token_skip_eq in H; apply rbind_ok in H; destruct H as ([tk1 r1] & H1 & H);
    destruct (token_aux_sfx _ _ _ _ _ (le_n _) H1) as [S1 S2]; assert (L := read_token_length _ _ _ _ H1);
    destruct (fst tk1) eqn:Et; try (inversion H; subst; split; assumption); (destruct L as [L|[L _]]; [|congruence]); [lia|].
  destruct (IH r1 tk rest) as [I1 I2]; [lia|exact H|]. split; [eapply sfx_trans; eauto|].
  destruct I2 as [I2|[I2|[I2 I3]]]; unfold stands; auto. right. right. split; [eapply sfx_holds; eauto|exact I3].
Qed.

Lemma c_sfx : forall f,
  (forall s o r, c_obj f s = Ok (o, r) -> sfx r s /\ (List.length r < List.length s)%nat) /\
  (forall s l r, c_array f s = Ok (l, r) -> sfx r s) /\
  (forall s acc l r, c_dict f s acc = Ok (l, r) -> sfx r s).
Proof.
  induction f as [|f (IHo & IHa & IHd)]; [split; [|split]; intros; discriminate|]. split; [|split].
  - intros s o r H. cbn [c_obj] in H. apply rbind_ok in H; destruct H as ([tk rest] & H1 & H).
    assert (L := read_token_skip_length _ _ _ _ H1). destruct (token_skip_sfx _ _ _ H1) as [S1 _].
    destruct (fst tk) eqn:Et; try discriminate; destruct L as [L|[E _]]; try congruence;
      try (inversion H; subst; split; [assumption|lia]; fail);
      try (apply rbind_ok in H; destruct H as (? & _ & H); inversion H; subst; split; [assumption|lia]; fail).
    + apply rbind_ok in H; destruct H as ([l r1] & H2 & H). apply IHd in H2. inversion H; subst. split; [eapply sfx_trans; eauto|]. apply sfx_len in H2. lia.
    + apply rbind_ok in H; destruct H as ([l r1] & H2 & H). apply IHa in H2. inversion H; subst. split; [eapply sfx_trans; eauto|]. apply sfx_len in H2. lia.
  - intros s l r H. cbn [c_array] in H. apply rbind_ok in H; destruct H as ([tk rest] & H1 & H).
    destruct (token_skip_sfx _ _ _ H1) as [S1 _]. cif_in H; [inversion H; subst; exact S1|].
    apply rbind_ok in H; destruct H as ([o r1] & H2 & H). apply IHo in H2. destruct H2 as [H2 _].
    apply rbind_ok in H; destruct H as ([l2 r2] & H3 & H). apply IHa in H3. inversion H; subst. eapply sfx_trans; eauto.
  - intros s acc l r H. cbn [c_dict] in H. apply rbind_ok in H; destruct H as ([tk rest] & H1 & H).
    destruct (token_skip_sfx _ _ _ H1) as [S1 _]. cif_in H; [inversion H; subst; exact S1|].
    apply rbind_ok in H; destruct H as ([o r1] & H2 & H). apply IHo in H2. destruct H2 as [H2 _].
    apply rbind_ok in H; destruct H as ([v r2] & H3 & H). apply IHo in H3. destruct H3 as [H3 _].
    assert (G : forall acc, c_dict f r2 acc = Ok (l, r) -> sfx r s) by (intros a Ha; apply IHd in Ha; eapply sfx_trans; [eassumption|]; eapply sfx_trans; eassumption).
    destruct v, o; try (eapply G; exact H); (match type of H with (if ?b then _ else _) = _ => destruct b end; eapply G; exact H).
Qed.

Lemma c_total : forall f,
  (forall s, (2 * List.length s + 2 <= f)%nat -> c_obj f s <> NoFuel) /\
  (forall s, (2 * List.length s + 3 <= f)%nat -> c_array f s <> NoFuel) /\
  (forall s acc, (2 * List.length s + 3 <= f)%nat -> c_dict f s acc <> NoFuel).
Proof.
  assert (rl_ends : forall n g : N, (fun _ _ => Throw EGeneral : res Z) n g <> NoFuel) by discriminate.
  induction f as [|f (IHo & IHa & IHd)]; [split; [|split]; intros; lia|]. split; [|split].
  - intros s Hs. cbn [c_obj]. apply rbind_nofuel; [apply read_token_skip_nofuel|intros [tk rest] H1].
    apply read_token_skip_length in H1.
    destruct (fst tk) eqn:Et; try discriminate; destruct H1 as [H1|[E _]]; try congruence.
    + apply rbind_nofuel; [apply IHd; lia|intros [l r] _; discriminate].
    + apply rbind_nofuel; [apply IHa; lia|intros [l r] _; discriminate].
    + apply rbind_nofuel; [unfold hex_decode; eapply hex_pairs_nofuel; [exact rl_ends|reflexivity]|discriminate].
    + apply rbind_nofuel; [apply literal_decode_total|discriminate].
    + apply rbind_nofuel; [apply (stoll_nofuel)|discriminate].
    + apply rbind_nofuel; [unfold create_real; destruct (real_parts (snd tk)) as [[? ?] ?]; destruct (take_digits 10 _ 0 O) as [? [|?]]; discriminate|discriminate].
  - intros s Hs. cbn [c_array]. apply rbind_nofuel; [apply read_token_skip_nofuel|intros [tk rest] H1].
    cif; [discriminate|]. apply rbind_nofuel; [apply IHo; lia|intros [o r1] H2]. apply (proj1 (c_sfx f)) in H2.
    apply rbind_nofuel; [apply IHa; lia|intros [l r2] _; discriminate].
  - intros s acc Hs. cbn [c_dict]. apply rbind_nofuel; [apply read_token_skip_nofuel|intros [tk rest] H1].
    cif; [discriminate|]. apply rbind_nofuel; [apply IHo; lia|intros [o r1] H2]. apply (proj1 (c_sfx f)) in H2.
    apply rbind_nofuel; [apply IHo; lia|intros [v r2] H3]. apply (proj1 (c_sfx f)) in H3.
    assert (G : forall acc, c_dict f r2 acc <> NoFuel) by (intros; apply IHd; lia).
    destruct v, o; try apply G; (match goal with |- (if ?b then _ else _) <> _ => destruct b end; apply G).
Qed.
Lemma direct_total : forall s, c_direct s <> NoFuel.
Proof. intros s. apply (proj1 (c_total _)). lia. Qed.
Lemma direct_sfx : forall s o r, c_direct s = Ok (o, r) -> sfx r s /\ (List.length r < List.length s)%nat.
Proof. intros s o r H. exact (proj1 (c_sfx _) _ _ _ H). Qed.

Lemma peek_ends : forall s, peek_type_skip d s <> NoFuel.
Proof. intros s. unfold peek_type_skip. apply rbind_nofuel; [apply read_token_skip_nofuel|intros [? ?] _; discriminate]. Qed.

Lemma operands_total : forall f s, (List.length s < f)%nat -> read_operands f s <> NoFuel.
Proof.
  induction f as [|f IH]; intros s Hf; [lia|]. cbn [read_operands]. apply rbind_nofuel; [apply peek_ends|intros ty _]. cif; [|discriminate].
  apply rbind_nofuel; [apply direct_total|intros [o r1] H1]. apply direct_sfx in H1. apply rbind_nofuel; [apply IH; lia|intros [? ?] _; discriminate].
Qed.
Lemma operands_sfx : forall f s l r, read_operands f s = Ok (l, r) -> sfx r s /\ (l = [] /\ r = s \/ (List.length r < List.length s)%nat).
Proof.
  induction f as [|f IH]; intros s l r H; [discriminate|]. cbn [read_operands] in H. apply rbind_ok in H. destruct H as (ty & E1 & H). cif_in H.
  - apply rbind_ok in H. destruct H as ([o r1] & E3 & H). apply rbind_ok in H. destruct H as ([l2 r2] & E4 & H). inversion H; subst.
    apply direct_sfx in E3. destruct E3 as [S1 L1]. apply IH in E4. destruct E4 as [S2 _]. split; [eapply sfx_trans; eauto|]. right. apply sfx_len in S2. lia.
  - inversion H; subst. split; [apply sfx_refl|auto].
Qed.
Lemma make_op_ends : forall l tk, make_op l tk <> NoFuel.
Proof.
  intros l [ty v]. unfold make_op, no_operands. cbn [fst snd]. destruct ty; try discriminate.
  repeat (match goal with |- (if ?b then _ else _) <> _ => destruct b end; [repeat match goal with |- match ?x with _ => _ end <> _ => destruct x end; discriminate|]).
  discriminate.
Qed.
Lemma operation_total : forall s, read_operation s <> NoFuel.
Proof.
  intros s. unfold read_operation. apply rbind_nofuel; [apply operands_total; lia|intros [l r] _].
  apply rbind_nofuel; [apply read_token_skip_nofuel|intros [tk r1] _]. apply rbind_nofuel; [apply make_op_ends|discriminate].
Qed.
Lemma operation_sfx : forall s o r ty, read_operation s = Ok (o, r) -> peek_type_skip d s = Ok ty -> ttype_eqb ty TyEof = false ->
  sfx r s /\ (List.length r < List.length s)%nat /\ (o = OpBeginImage -> holds (str "BI") s).
Proof.
  intros s o r ty H Hp Ht. unfold read_operation in H. apply rbind_ok in H. destruct H as ([l r1] & E1 & H). apply rbind_ok in H. destruct H as ([tk r2] & E2 & H).
  apply rbind_ok in H. destruct H as (q & E3 & H). inversion H; subst q r2. clear H.
  assert (Hst := operands_stop _ _ _ _ E1). apply operands_sfx in E1. destruct E1 as [S1 L1]. destruct (token_skip_sfx _ _ _ E2) as [S2 St].
  assert (L2 := read_token_skip_length _ _ _ _ E2).
  split; [eapply sfx_trans; eauto|]. split.
  - destruct L1 as [[-> ->]|L1]; [|apply sfx_len in S2; lia].
    destruct L2 as [L2|[L2 _]]; [exact L2|]. exfalso. unfold peek_type_skip in Hp. rewrite E2 in Hp. cbn [rbind] in Hp. inversion Hp; subst ty. rewrite L2 in Ht. discriminate.
  - intros ->. destruct Hst as (ty2 & E4 & E5). unfold peek_type_skip in E4. rewrite E2 in E4. cbn [rbind] in E4. inversion E4; subst ty2. clear E4.
    eapply sfx_holds; [exact S1|].
    destruct tk as [ty0 v]. unfold make_op, no_operands in E3. unfold stands in *. cbn [fst snd] in *.
    destruct ty0; try (inversion E3; fail).
    destruct St as [St|[[_ St]|[St Sd]]]; [discriminate|exfalso; exact (St _ eq_refl)|].
    assert (Ew : s0 = v).
    { symmetry in Sd. unfold content_dictionary in Sd. destruct (existsb (bytes_eqb v) content_words); [congruence|].
      unfold parser_dictionary in Sd. repeat (match type of Sd with (if ?b then _ else _) = _ => destruct b end; try discriminate). }
    subst s0. destruct (bytes_eqb v (str "BI")) eqn:Eb; [apply bytes_eqb_eq in Eb; rewrite <- Eb; exact St|]. exfalso. clear - E3 Eb.
    repeat (match type of E3 with (if ?b then _ else _) = _ => destruct b end; [repeat match type of E3 with match ?x with _ => _ end = _ => destruct x end; discriminate|]).
    discriminate.
Qed.

(** ** text objects *)
Lemma text_total : forall f s, (List.length s < f)%nat -> read_text f s <> NoFuel.
Proof.
  induction f as [|f IH]; intros s Hf; [lia|]. cbn [read_text]. apply rbind_nofuel; [apply peek_ends|intros ty Hp]. destruct (ttype_eqb ty TyEof) eqn:C; [discriminate|].
  apply rbind_nofuel; [apply operation_total|intros [o r] Ho]. destruct (operation_sfx _ _ _ _ Ho Hp C) as (_ & L & _).
  destruct o; try discriminate; (apply rbind_nofuel; [apply IH; lia|intros [? ?] _; discriminate]).
Qed.
Lemma text_sfx : forall f s l r, read_text f s = Ok (l, r) -> sfx r s.
Proof.
  induction f as [|f IH]; intros s l r H; [discriminate|]. cbn [read_text] in H. apply rbind_ok in H. destruct H as (ty & Hp & H).
  destruct (ttype_eqb ty TyEof) eqn:C; [inversion H; subst; apply sfx_refl|]. apply rbind_ok in H. destruct H as ([o r1] & Ho & H).
  destruct (operation_sfx _ _ _ _ Ho Hp C) as (S1 & _ & _).
  destruct o; try (inversion H; subst; exact S1);
    (apply rbind_ok in H; destruct H as ([l2 r2] & E & H); inversion H; subst; apply IH in E; eapply sfx_trans; eauto).
Qed.

(** ** image dictionaries: when the bound is reached, every bound is reached *)
Lemma image_dict_stuck : forall f s acc, (List.length s < f)%nat -> read_image_dict f s acc = NoFuel -> forall f', read_image_dict f' s acc = NoFuel.
Proof.
  induction f as [|f IH]; intros s acc Hf H; [lia|]. intros f'. destruct f' as [|f']; [reflexivity|]. cbn [read_image_dict] in H |- *.
  destruct (peek_type_skip d s) as [ty|e| |] eqn:Ep; cbn [rbind] in H |- *; try discriminate; [|reflexivity].
  assert (Hloop : (match ty with TyName => False | TyKw w => bytes_eqb w (str "ID") = false | _ => True end) -> forall g, read_image_dict g s acc = NoFuel).
  { intros Hty. induction g as [|g IHg]; [reflexivity|]. cbn [read_image_dict]. rewrite Ep. cbn [rbind].
    destruct ty; try contradiction; try exact IHg. rewrite Hty. exact IHg. }
  destruct ty; try (apply Hloop; exact I).
  - destruct (expect_skip d TyName s) as [[k r1]|e| |] eqn:Ee; cbn [rbind] in H |- *; try discriminate; [|reflexivity].
    destruct (c_direct r1) as [[v r2]|e| |] eqn:Ed; cbn [rbind] in H |- *; try discriminate; [|reflexivity].
    assert (L : (List.length r2 < List.length s)%nat).
    { apply direct_sfx in Ed. unfold expect_skip in Ee. apply rbind_ok in Ee. destruct Ee as ([tk r3] & E3 & Ee). cif_in Ee; [|discriminate]. inversion Ee; subst.
      apply read_token_skip_length in E3. destruct E3 as [E3|[_ E3]]; [lia|]. subst. cbn in Ed. lia. }
    destruct v; try (destruct (sm_contains k acc); [discriminate|]); (apply IH; [lia|exact H]).
  - destruct (bytes_eqb s0 (str "ID")) eqn:Eb; [discriminate|]. apply Hloop. reflexivity.
Qed.
Lemma image_dict_agree : forall f f' s acc x y, read_image_dict f s acc = x -> read_image_dict f' s acc = y -> x <> NoFuel -> y <> NoFuel -> x = y.
Proof.
  induction f as [|f IH]; intros f' s acc x y Hx Hy Nx Ny; [cbn in Hx; congruence|]. destruct f' as [|f']; [cbn in Hy; congruence|]. cbn [read_image_dict] in Hx, Hy.
  destruct (peek_type_skip d s) as [ty|e| |]; cbn [rbind] in Hx, Hy; try congruence.
  destruct ty; try (eapply IH; eauto; fail).
  - destruct (expect_skip d TyName s) as [[k r1]|e| |]; cbn [rbind] in Hx, Hy; try congruence.
    destruct (c_direct r1) as [[v r2]|e| |]; cbn [rbind] in Hx, Hy; try congruence.
    destruct v; try (destruct (sm_contains k acc); [congruence|]); eapply IH; eauto.
  - destruct (bytes_eqb s0 (str "ID")); [congruence|]. eapply IH; eauto.
Qed.
Lemma image_dict_sfx : forall f s acc m r, read_image_dict f s acc = Ok (m, r) -> sfx r s.
Proof.
  induction f as [|f IH]; intros s acc m r H; [discriminate|]. cbn [read_image_dict] in H. apply rbind_ok in H. destruct H as (ty & Hp & H).
  destruct ty; try (eapply IH; exact H).
  - apply rbind_ok in H. destruct H as ([k r1] & E1 & H). apply rbind_ok in H. destruct H as ([v r2] & E2 & H). apply direct_sfx in E2. destruct E2 as [S2 _].
    assert (S1 : sfx r1 s).
    { unfold expect_skip in E1. apply rbind_ok in E1. destruct E1 as ([tk r3] & E3 & E1). cif_in E1; [|discriminate]. inversion E1; subst. apply token_skip_sfx in E3. tauto. }
    assert (G : forall acc, read_image_dict f r2 acc = Ok (m, r) -> sfx r s).
    { intros a Ha. apply IH in Ha. eapply sfx_trans; [exact Ha|]. eapply sfx_trans; eauto. }
    destruct v; try (destruct (sm_contains k acc); [discriminate|]); eapply G; exact H.
  - destruct (bytes_eqb s0 (str "ID")); [inversion H; subst; apply sfx_refl|]. eapply IH; exact H.
Qed.
Lemma image_data_total : forall s stage ws, read_image_data stage ws s <> NoFuel.
Proof.
  induction s as [|c t IH]; intros stage ws; cbn [read_image_data]; [discriminate|].
  repeat (match goal with |- (if ?b then _ else _) <> _ => destruct b end); try apply IH; try discriminate;
    (apply rbind_nofuel; [apply IH|intros [? ?] _; discriminate]).
Qed.
Lemma image_data_sfx : forall s stage ws l r, read_image_data stage ws s = Ok (l, r) -> sfx r s.
Proof.
  induction s as [|c t IH]; intros stage ws l r H; cbn [read_image_data] in H; [discriminate|].
  repeat (match type of H with (if ?b then _ else _) = _ => destruct b end); try (apply sfx_cons; eapply IH; exact H);
    try (inversion H; subst; apply sfx_cons, sfx_refl);
    (apply rbind_ok in H; destruct H as ([l2 r2] & E & H); inversion H; subst; apply sfx_cons; eapply IH; exact E).
Qed.
Lemma operation_le : forall s o r, read_operation s = Ok (o, r) -> sfx r s.
Proof.
  intros s o r H. unfold read_operation in H. apply rbind_ok in H. destruct H as ([l r1] & E1 & H). apply rbind_ok in H. destruct H as ([tk r2] & E2 & H).
  apply rbind_ok in H. destruct H as (q & E3 & H). inversion H; subst. apply operands_sfx in E1. apply token_skip_sfx in E2. eapply sfx_trans; [apply E2|apply E1].
Qed.
Lemma image_sfx : forall f s i r, read_image f s = Ok (i, r) -> sfx r s.
Proof.
  intros f s i r H. unfold read_image in H. apply rbind_ok in H. destruct H as ([m r1] & E1 & H). apply rbind_ok in H. destruct H as ([o r2] & E2 & H).
  apply rbind_ok in H. destruct H as ([l r3] & E3 & H). inversion H; subst. apply image_dict_sfx in E1. apply operation_le in E2. apply image_data_sfx in E3.
  eapply sfx_trans; [exact E3|]. eapply sfx_trans; eauto.
Qed.
Lemma image_stuck : forall f s, (List.length s < f)%nat -> read_image f s = NoFuel -> forall f', read_image f' s = NoFuel.
Proof.
  intros f s Hf H f'. unfold read_image in *. destruct (read_image_dict f s []) as [[m r1]|e| |] eqn:E; cbn [rbind] in H; try discriminate.
  - exfalso. revert H. apply rbind_nofuel; [apply operation_total|intros [o r2] _]. apply rbind_nofuel; [apply image_data_total|intros [? ?] _; discriminate].
  - rewrite (image_dict_stuck f s [] Hf E f'). reflexivity.
Qed.
Lemma image_agree : forall f f' s x y, read_image f s = x -> read_image f' s = y -> x <> NoFuel -> y <> NoFuel -> x = y.
Proof.
  intros f f' s x y Hx Hy Nx Ny. unfold read_image in *.
  assert (E : read_image_dict f s [] = read_image_dict f' s []).
  { eapply image_dict_agree; eauto; intros E; rewrite E in *; cbn [rbind] in *; congruence. }
  rewrite E in Hx. congruence.
Qed.
Lemma text_agree : forall f f' s x y, read_text f s = x -> read_text f' s = y -> x <> NoFuel -> y <> NoFuel -> x = y.
Proof.
  induction f as [|f IH]; intros f' s x y Hx Hy Nx Ny; [cbn in Hx; congruence|]. destruct f' as [|f']; [cbn in Hy; congruence|]. cbn [read_text] in Hx, Hy.
  destruct (peek_type_skip d s) as [ty|e| |]; cbn [rbind] in Hx, Hy; try congruence.
  destruct (ttype_eqb ty TyEof); [congruence|]. destruct (read_operation s) as [[o r]|e| |]; cbn [rbind] in Hx, Hy; try congruence.
  assert (E : o <> OpEndText -> x = y).
  { intros Ho. assert (E : read_text f r = read_text f' r).
    { eapply IH; eauto; intros E; rewrite E in *; cbn [rbind] in *; destruct o; congruence. }
    rewrite E in Hx. destruct o; congruence. }
  destruct o; try (apply E; discriminate). congruence.
Qed.

(** ** the whole stream *)
Lemma instruction_agree : forall f f' s x y, read_instruction f s = x -> read_instruction f' s = y -> x <> NoFuel -> y <> NoFuel -> x = y.
Proof.
  intros f f' s x y Hx Hy Nx Ny. unfold read_instruction in *. destruct (read_operation s) as [[o r]|e| |]; cbn [rbind] in Hx, Hy; try congruence.
  destruct o; try congruence.
  - assert (E : read_text f r = read_text f' r) by (eapply text_agree; eauto; intros E; rewrite E in *; cbn [rbind] in *; congruence).
    rewrite E in Hx. congruence.
  - eapply image_agree; eauto.
Qed.
Lemma instruction_stuck : forall f s, (List.length s < f)%nat -> read_instruction f s = NoFuel -> forall f', read_instruction f' s = NoFuel.
Proof.
  intros f s Hf H f'. unfold read_instruction in *. destruct (read_operation s) as [[o r]|e| |] eqn:E; cbn [rbind] in H |- *; try discriminate; [|reflexivity].
  assert (L := sfx_len _ _ (operation_le _ _ _ E)).
  destruct o; try discriminate.
  - exfalso. revert H. apply rbind_nofuel; [apply text_total; lia|intros [? ?] _; discriminate].
  - eapply image_stuck; [|exact H]. lia.
Qed.
Lemma instruction_sfx : forall f s i r ty, read_instruction f s = Ok (i, r) -> peek_type_skip d s = Ok ty -> ttype_eqb ty TyEof = false ->
  sfx r s /\ (List.length r < List.length s)%nat.
Proof.
  intros f s i r ty H Hp Ht. unfold read_instruction in H. apply rbind_ok in H. destruct H as ([o r1] & E & H).
  destruct (operation_sfx _ _ _ _ E Hp Ht) as (S1 & L & _).
  destruct o; try (inversion H; subst; split; assumption).
  - apply rbind_ok in H. destruct H as ([l r2] & E2 & H). inversion H; subst. apply text_sfx in E2. assert (L2 := sfx_len _ _ E2).
    split; [eapply sfx_trans; eauto|lia].
  - apply image_sfx in H. assert (L2 := sfx_len _ _ H). split; [eapply sfx_trans; eauto|lia].
Qed.

Lemma stuck : forall f s, (List.length s + 1 < f)%nat -> read_instructions f s = NoFuel ->
  (forall f', read_instructions f' s = NoFuel) /\ holds (str "BI") s.
Proof.
  induction f as [|f IH]; intros s Hf H; [lia|]. cbn [read_instructions] in H.
  destruct (peek_type_skip d s) as [ty|e| |] eqn:Ep; cbn [rbind] in H; try discriminate; [|exfalso; exact (peek_ends _ Ep)].
  destruct (ttype_eqb ty TyEof) eqn:Et; [discriminate|].
  destruct (read_instruction f s) as [[i r]|e| |] eqn:Ei; cbn [rbind] in H; try discriminate.
  - destruct (instruction_sfx _ _ _ _ _ Ei Ep Et) as [S1 L]. destruct (read_instructions f r) as [l|e| |] eqn:Er; cbn [rbind] in H; try discriminate.
    destruct (IH r) as [I1 I2]; [lia|exact Er|]. split; [|eapply sfx_holds; eauto].
    intros f'. destruct f' as [|f']; [reflexivity|]. cbn [read_instructions]. rewrite Ep. cbn [rbind]. rewrite Et.
    destruct (read_instruction f' s) as [[i' r']|e| |] eqn:Ei'; cbn [rbind]; try reflexivity;
      assert (G := instruction_agree _ _ _ _ _ Ei Ei' ltac:(discriminate) ltac:(discriminate)); try discriminate.
    inversion G; subst i' r'. rewrite I1. reflexivity.
  - split.
    + intros f'. destruct f' as [|f']; [reflexivity|]. cbn [read_instructions]. rewrite Ep. cbn [rbind]. rewrite Et.
      rewrite (instruction_stuck f s ltac:(lia) Ei f'). reflexivity.
    + unfold read_instruction in Ei. destruct (read_operation s) as [[o r]|e| |] eqn:E; cbn [rbind] in Ei; try discriminate; [|exfalso; exact (operation_total _ E)].
      destruct (operation_sfx _ _ _ _ E Ep Et) as (_ & L & Hb). destruct o; try discriminate; [|apply Hb; reflexivity].
      exfalso. revert Ei. apply rbind_nofuel; [apply text_total; lia|intros [? ?] _; discriminate].
Qed.

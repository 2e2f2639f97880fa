(** The tokenizer: consumption, gaps, one lemma per kind of token. *)
From Coq Require Import List NArith ZArith Bool Lia String.
From Verif.Model Require Import Base Char Numbers Object Token.
From Verif.Spec Require Import Strings Grammar.
From Verif.Proof Require Import Tac Numbers Strings.
Import ListNotations.
Local Open Scope N_scope.

Lemma span_length : forall {A} (f : A -> bool) l p r, span f l = (p, r) -> (List.length r <= List.length l)%nat.
Proof. intros A f l p r H. apply span_spec in H. destruct H as (-> & _). rewrite app_length. lia. Qed.

Lemma read_name_length : forall k s n rest, (List.length s <= k)%nat -> read_name s = Ok (n, rest) -> (List.length rest <= List.length s)%nat.
Proof.
  induction k as [|k IH]; intros s n rest Hk H; destruct s as [|c t]; cbn in Hk; try lia; try (inversion H; subst; cbn; lia).
  cbn [read_name] in H. destruct (is_regular c); [|inversion H; subst; cbn; lia].
  destruct (c =? 35).
  - destruct t as [|a [|b t']].
    + apply rbind_ok in H; destruct H as (? & _ & H). apply rbind_ok in H; destruct H as (? & _ & H). inversion H; subst. cbn; lia.
    + apply rbind_ok in H; destruct H as (? & _ & H). apply rbind_ok in H; destruct H as (? & _ & H). inversion H; subst. cbn; lia.
    + apply rbind_ok in H; destruct H as (? & _ & H). apply rbind_ok in H; destruct H as (? & _ & H).
      apply rbind_ok in H; destruct H as ([cs r] & H1 & H). inversion H; subst. apply IH in H1; cbn in *; lia.
  - apply rbind_ok in H; destruct H as ([cs r] & H1 & H). inversion H; subst. apply IH in H1; cbn in *; lia.
Qed.

Lemma read_hex_length : forall s v rest, read_hex s = Ok (v, rest) -> (List.length rest <= List.length s)%nat.
Proof.
  induction s as [|c t IH]; intros v rest H; cbn [read_hex] in H; [inversion H; subst; cbn; lia|].
  destruct (c =? 62); [inversion H; subst; cbn; lia|].
  destruct (is_white c); [apply IH in H; cbn; lia|].
  destruct (is_numeric c || is_alpha c); [|discriminate].
  apply rbind_ok in H; destruct H as ([cs r] & H1 & H). inversion H; subst. apply IH in H1. cbn; lia.
Qed.

Lemma read_literal_length : forall s n b v rest, read_literal n b s = Ok (v, rest) -> (List.length rest < List.length s)%nat.
Proof.
  induction s as [|c t IH]; intros n b v rest H; cbn [read_literal] in H; [discriminate|]. destruct b.
  - apply rbind_ok in H; destruct H as ([cs r] & H1 & H). inversion H; subst. apply IH in H1. cbn; lia.
  - destruct ((c =? 41) && (n =? 1)); [inversion H; subst; cbn; lia|].
    apply rbind_ok in H; destruct H as ([cs r] & H1 & H). inversion H; subst. apply IH in H1. cbn; lia.
Qed.

Lemma read_unknown_length : forall d c s tk rest, read_unknown d c s = (tk, rest) -> (List.length rest <= List.length s)%nat.
Proof.
  intros d c s tk rest H. unfold read_unknown in H.
  destruct (is_numeric c || (c =? 43) || (c =? 45) || (c =? 46)).
  - destruct (span is_numeric s) as [ds s1] eqn:E. apply span_length in E.
    destruct (c =? 46); [inversion H; subst; lia|].
    destruct s1 as [|x s2]; [inversion H; subst; cbn; lia|].
    destruct (N.eq_dec x 46) as [->|Hx].
    + destruct (span is_numeric s2) as [ds2 s3] eqn:E2. apply span_length in E2. inversion H; subst. cbn in *; lia.
    + assert (H' : ((TyInt, c :: ds), x :: s2) = (tk, rest)).
      { destruct x as [|p]; [exact H|]. do 6 (destruct p as [p|p|]; try exact H). congruence. }
      inversion H'; subst. lia.
  - destruct (span is_regular s) as [cs s1] eqn:E. apply span_length in E. inversion H; subst. lia.
Qed.

Lemma match10 : forall {A} (t : list N) (f : list N -> A) (g : A),
  (exists t', t = 10 :: t' /\ (match t with 10 :: t' => f t' | _ => g end) = f t') \/
  (match t with 10 :: _ => False | _ => True end) /\ (match t with 10 :: t' => f t' | _ => g end) = g.
Proof.
  intros A t f g. destruct t as [|x t]; [right; auto|]. destruct (N.eq_dec x 10) as [->|Hx]; [left; eauto|right].
  destruct x as [|p]; [auto|]. do 4 (destruct p as [p|p|]; auto). congruence.
Qed.
Lemma match62 : forall {A} (t : list N) (f : list N -> A) (g : A),
  (exists t', t = 62 :: t' /\ (match t with 62 :: t' => f t' | _ => g end) = f t') \/
  (match t with 62 :: t' => f t' | _ => g end) = g.
Proof.
  intros A t f g. destruct t as [|x t]; [right; auto|]. destruct (N.eq_dec x 62) as [->|Hx]; [left; eauto|right].
  destruct x as [|p]; [auto|]. do 6 (destruct p as [p|p|]; auto). congruence.
Qed.
Lemma match60_62 : forall {A} (t : list N) (f1 f2 : list N -> A) (g : A),
  (exists t', t = 60 :: t' /\ (match t with 60 :: t' => f1 t' | 62 :: t' => f2 t' | _ => g end) = f1 t') \/
  (exists t', t = 62 :: t' /\ (match t with 60 :: t' => f1 t' | 62 :: t' => f2 t' | _ => g end) = f2 t') \/
  (match t with 60 :: t' => f1 t' | 62 :: t' => f2 t' | _ => g end) = g.
Proof.
  intros A t f1 f2 g. destruct t as [|x t]; [right; auto|].
  destruct (N.eq_dec x 60) as [->|Hx]; [left; eauto|right]. destruct (N.eq_dec x 62) as [->|Hy]; [left; eauto|right].
  destruct x as [|p]; [auto|]. do 6 (destruct p as [p|p|]; auto); congruence.
Qed.

Lemma read_token_aux_length : forall d k s comment tk rest, (List.length s <= k)%nat ->
  read_token_aux d comment s = Ok (tk, rest) ->
  (List.length rest < List.length s)%nat \/ (fst tk = TyEof /\ rest = []).
Proof.
  intros d. induction k as [|k IH]; intros s comment tk rest Hk H; destruct s as [|c t]; cbn in Hk; try lia;
    try (right; cbn in H; inversion H; subst; cbn; auto; fail).
  assert (IH' : forall t' cm, read_token_aux d cm t' = Ok (tk, rest) -> (List.length t' <= List.length t)%nat ->
     (List.length rest < List.length (c :: t))%nat \/ (fst tk = TyEof /\ rest = [])).
  { intros t' cm H1 H2. apply IH in H1; [|lia]. cbn. destruct H1; [left; lia|right; assumption]. }
  cbn [read_token_aux] in H.
  destruct comment.
  { destruct (c =? 13).
    - destruct (match10 (A := res (token * bytes)) t (fun t' => read_token_aux d false t') (read_token_aux d false t)) as [(t' & Et' & E)|[_ E]]; rewrite E in H; try (rewrite Et' in *; clear Et');
        eapply IH'; eauto; cbn; lia.
    - destruct (c =? 10); eapply IH'; eauto. }
  destruct ((c =? 32) || (c =? 12) || (c =? 9) || (c =? 0)); [eapply IH'; eauto|].
  destruct (c =? 37); [eapply IH'; eauto|].
  left. cbn [List.length].
  destruct (c =? 10); [inversion H; subst; lia|].
  destruct (c =? 13).
  { destruct (match10 (A := res (token * bytes)) t (fun t' => Ok ((TyEol, @nil N), t')) (Ok ((TyEol, []), t))) as [(t' & Et' & E)|[_ E]]; rewrite E in H; try (rewrite Et' in *; clear Et');
      inversion H; subst; cbn; lia. }
  destruct (c =? 62).
  { destruct (match62 (A := res (token * bytes)) t (fun t' => Ok ((TyDictEnd, @nil N), t')) (Throw EGeneral)) as [(t' & Et' & E)|E]; rewrite E in H; try (rewrite Et' in *; clear Et');
      [|discriminate]. inversion H; subst; cbn; lia. }
  destruct (c =? 60).
  { destruct (match60_62 (A := res (token * bytes)) t (fun t' => Ok ((TyDictBegin, @nil N), t')) (fun t' => Ok ((TyHex, @nil N), t'))
       (do '(cs, rest0) <- read_hex t;; Ok ((TyHex, cs), rest0))) as [(t' & Et' & E)|[(t' & Et' & E)|E]]; rewrite E in H; try (rewrite Et' in *; clear Et').
    - inversion H; subst; cbn; lia.
    - inversion H; subst; cbn; lia.
    - apply rbind_ok in H; destruct H as ([cs r] & H1 & H). inversion H; subst. apply read_hex_length in H1. lia. }
  destruct (c =? 91); [inversion H; subst; lia|].
  destruct (c =? 93); [inversion H; subst; lia|].
  destruct (c =? 47).
  { apply rbind_ok in H; destruct H as ([cs r] & H1 & H). inversion H; subst. eapply read_name_length in H1; [|reflexivity]. lia. }
  destruct (c =? 40).
  { apply rbind_ok in H; destruct H as ([cs r] & H1 & H). inversion H; subst. apply read_literal_length in H1. lia. }
  destruct (read_unknown d c t) as [tk' r'] eqn:E. inversion H; subst. apply read_unknown_length in E. lia.
Qed.

Lemma read_token_length : forall d s tk rest, read_token d s = Ok (tk, rest) ->
  (List.length rest < List.length s)%nat \/ (fst tk = TyEof /\ rest = []).
Proof. intros d s tk rest H. eapply read_token_aux_length; [|exact H]. reflexivity. Qed.

(** ** the end-of-line skipping loop *)
Lemma read_skip_fuel_eq : forall d k s f g, (List.length s <= k)%nat -> (List.length s < f)%nat -> (List.length s < g)%nat ->
  read_skip_fuel f d s = read_skip_fuel g d s.
Proof.
  intros d. induction k as [|k IH]; intros s f g Hk Hf Hg; destruct f as [|f], g as [|g]; try lia; cbn [read_skip_fuel].
  - destruct s; [reflexivity|cbn in Hk; lia].
  - destruct (read_token d s) as [[tk rest]| | |] eqn:E; cbn [rbind]; try reflexivity.
    destruct (fst tk) eqn:Et; try reflexivity.
    apply read_token_length in E. destruct E as [E|[E _]]; [|congruence]. apply IH; lia.
Qed.

Lemma read_token_skip_eq : forall d s, read_token_skip d s =
  do '(tk, rest) <- read_token d s;;
  match fst tk with TyEol => read_token_skip d rest | _ => Ok (tk, rest) end.
Proof.
  intros d s. unfold read_token_skip at 1. cbn [read_skip_fuel].
  destruct (read_token d s) as [[tk rest]| | |] eqn:E; cbn [rbind]; try reflexivity.
  destruct (fst tk) eqn:Et; try reflexivity.
  apply read_token_length in E. destruct E as [E|[E _]]; [|congruence].
  unfold read_token_skip. apply (read_skip_fuel_eq d (List.length rest)); lia.
Qed.

(** enough fuel is always given: ReadTokenSkip terminates *)
Lemma read_token_nofuel : forall d s, read_token d s <> NoFuel.
Proof.
  assert (Hn : forall k s, (List.length s <= k)%nat -> read_name s <> NoFuel).
  { induction k as [|k IH]; intros s Hk; destruct s as [|c t]; cbn in Hk; try lia; try discriminate.
    cbn [read_name]. destruct (is_regular c); [|discriminate].
    assert (St : forall b l, stoi b l <> NoFuel) by (intros b l; unfold stoi; destruct (strtol b l); [cif; discriminate|discriminate]).
    assert (Uc : forall v, to_uchar v <> NoFuel) by (intros v; unfold to_uchar; cif; [discriminate|cif; discriminate]).
    destruct (c =? 35).
    - destruct t as [|a [|b t']]; (apply rbind_nofuel; [apply St|intros v _; apply rbind_nofuel; [apply Uc|intros ch _]]); try discriminate.
      apply rbind_nofuel; [apply IH; cbn in *; lia|intros [? ?] _; discriminate].
    - apply rbind_nofuel; [apply IH; lia|intros [? ?] _; discriminate]. }
  assert (Hh : forall s, read_hex s <> NoFuel).
  { induction s as [|c t IH]; cbn [read_hex]; [discriminate|].
    destruct (c =? 62); [discriminate|]. destruct (is_white c); [exact IH|].
    destruct (is_numeric c || is_alpha c); [|discriminate]. apply rbind_nofuel; [exact IH|intros [? ?] _; discriminate]. }
  assert (Hl : forall s n b, read_literal n b s <> NoFuel).
  { induction s as [|c t IH]; intros n b; cbn [read_literal]; [discriminate|]. destruct b.
    - apply rbind_nofuel; [apply IH|intros [? ?] _; discriminate].
    - destruct ((c =? 41) && (n =? 1)); [discriminate|]. apply rbind_nofuel; [apply IH|intros [? ?] _; discriminate]. }
  intros d. enough (H : forall k s cm, (List.length s <= k)%nat -> read_token_aux d cm s <> NoFuel).
  { intros s. apply (H (List.length s)). lia. }
  induction k as [|k IH]; intros s cm Hk; destruct s as [|c t]; cbn in Hk; try lia; try discriminate.
  cbn [read_token_aux]. destruct cm.
  { destruct (c =? 13).
    - destruct (match10 (A := res (token * bytes)) t (fun t' => read_token_aux d false t') (read_token_aux d false t)) as [(t' & Et' & E)|[_ E]]; rewrite E; try rewrite Et' in *; apply IH; cbn in *; lia.
    - destruct (c =? 10); apply IH; lia. }
  destruct ((c =? 32) || (c =? 12) || (c =? 9) || (c =? 0)); [apply IH; lia|].
  destruct (c =? 37); [apply IH; lia|].
  destruct (c =? 10); [discriminate|].
  destruct (c =? 13).
  { destruct (match10 (A := res (token * bytes)) t (fun t' => Ok ((TyEol, @nil N), t')) (Ok ((TyEol, []), t))) as [(t' & Et' & E)|[_ E]]; rewrite E; discriminate. }
  destruct (c =? 62).
  { destruct (match62 (A := res (token * bytes)) t (fun t' => Ok ((TyDictEnd, @nil N), t')) (Throw EGeneral)) as [(t' & Et' & E)|E]; rewrite E; discriminate. }
  destruct (c =? 60).
  { destruct (match60_62 (A := res (token * bytes)) t (fun t' => Ok ((TyDictBegin, @nil N), t')) (fun t' => Ok ((TyHex, @nil N), t'))
       (do '(cs, rest0) <- read_hex t;; Ok ((TyHex, cs), rest0))) as [(t' & Et' & E)|[(t' & Et' & E)|E]]; rewrite E; try discriminate.
    apply rbind_nofuel; [apply Hh|intros [? ?] _; discriminate]. }
  destruct (c =? 91); [discriminate|]. destruct (c =? 93); [discriminate|].
  destruct (c =? 47); [apply rbind_nofuel; [eapply Hn; reflexivity|intros [? ?] _; discriminate]|].
  destruct (c =? 40); [apply rbind_nofuel; [apply Hl|intros [? ?] _; discriminate]|]. discriminate.
Qed.

Lemma read_token_skip_nofuel : forall d s, read_token_skip d s <> NoFuel.
Proof.
  intros d. enough (H : forall k s, (List.length s <= k)%nat -> read_token_skip d s <> NoFuel) by (intros s; apply (H (List.length s)); lia).
  induction k as [|k IH]; intros s Hk; rewrite read_token_skip_eq; (apply rbind_nofuel; [apply read_token_nofuel|]);
    intros [tk rest] E; destruct (fst tk) eqn:Et; try discriminate;
    apply read_token_length in E; (destruct E as [E|[E _]]; [|congruence]); [lia|apply IH; lia].
Qed.

Lemma read_token_skip_length : forall d s tk rest, read_token_skip d s = Ok (tk, rest) ->
  (List.length rest < List.length s)%nat \/ (fst tk = TyEof /\ rest = []).
Proof.
  intros d. enough (H : forall k s tk rest, (List.length s <= k)%nat -> read_token_skip d s = Ok (tk, rest) ->
    (List.length rest < List.length s)%nat \/ (fst tk = TyEof /\ rest = [])) by (intros s tk rest; apply (H (List.length s)); lia).
  induction k as [|k IH]; intros s tk rest Hk H; rewrite read_token_skip_eq in H; apply rbind_ok in H;
    destruct H as ([tk1 r1] & E & H); assert (E' := read_token_length _ _ _ _ E);
    destruct (fst tk1) eqn:Et; try (inversion H; subst; rewrite ?Et in *; exact E').
  - destruct E' as [E'|[E' _]]; [lia|congruence].
  - destruct E' as [E'|[E' _]]; [|congruence]. apply IH in H; [|lia]. destruct H; [left; lia|right; assumption].
Qed.

(** ** white space and comments *)
Lemma skip_white : forall d c s, In c pdf_white -> read_token_skip d (c :: s) = read_token_skip d s.
Proof.
  intros d c s Hc.
  destruct (N.eq_dec c 10) as [->|H10]; [rewrite read_token_skip_eq; reflexivity|].
  destruct (N.eq_dec c 13) as [->|H13].
  - rewrite read_token_skip_eq. unfold read_token. cbn [read_token_aux]. cbn [N.eqb Pos.eqb orb].
    destruct (match10 (A := res (token * bytes)) s (fun t' => Ok ((TyEol, @nil N), t')) (Ok ((TyEol, []), s))) as [(t' & Et' & E)|[_ E]]; rewrite E; cbn [rbind fst]; [|reflexivity].
    rewrite Et', (read_token_skip_eq d (10 :: t')). reflexivity.
  - rewrite read_token_skip_eq, (read_token_skip_eq d s). unfold read_token.
    replace (read_token_aux d false (c :: s)) with (read_token_aux d false s); [reflexivity|].
    cbn [read_token_aux]. apply is_white_spec in Hc. unfold is_white in Hc.
    replace ((c =? 32) || (c =? 12) || (c =? 9) || (c =? 0)) with true by lia. reflexivity.
Qed.

Lemma skip_gap : forall d g, gap g -> forall s, read_token_skip d (g ++ s) = read_token_skip d s.
Proof.
  intros d g H. induction H as [|c g Hc Hg IH|body e g Hb He Hg IH]; intros s; [reflexivity| |].
  - cbn [app]. rewrite skip_white by exact Hc. apply IH.
  - assert (Hc : forall body s, Forall (fun c => c <> 10 /\ c <> 13) body -> read_token_aux d true (body ++ s) = read_token_aux d true s).
    { induction body0 as [|c b IHb]; intros s0 Hb0; [reflexivity|]. inversion Hb0 as [|? ? [? ?] ?]; subst. cbn [app read_token_aux].
      replace (c =? 13) with false by lia. replace (c =? 10) with false by lia. apply IHb; assumption. }
    assert (H : forall s', read_token_aux d true (e ++ s') = read_token_aux d false s' \/
                           (exists s'', s' = 10 :: s'' /\ read_token_aux d true (e ++ s') = read_token_aux d false s'')).
    { intros s'. cbn in He. destruct He as [<-|[<-|[<-|[]]]]; cbn [app read_token_aux]; cbn [N.eqb Pos.eqb].
      - left; reflexivity.
      - destruct (match10 (A := res (token * bytes)) s' (fun t' => read_token_aux d false t') (read_token_aux d false s')) as [(t' & Et' & E)|[_ E]]; rewrite E; eauto.
      - left; reflexivity. }
    transitivity (read_token_skip d (g ++ s)); [|apply IH].
    change ((37 :: body ++ e ++ g) ++ s) with (37 :: (body ++ e ++ g) ++ s).
    rewrite read_token_skip_eq. unfold read_token. cbn [read_token_aux]. cbn [N.eqb Pos.eqb orb].
    rewrite <- !app_assoc, Hc by exact Hb.
    destruct (H (g ++ s)) as [E|(s'' & E1 & E)]; rewrite E.
    + rewrite (read_token_skip_eq d (g ++ s)). reflexivity.
    + rewrite E1. rewrite (skip_white d 10) by (cbn; tauto). rewrite (read_token_skip_eq d s''). reflexivity.
Qed.

(** ** single tokens *)
Lemma skip_of_read : forall d s tk rest, read_token d s = Ok (tk, rest) -> fst tk <> TyEol -> read_token_skip d s = Ok (tk, rest).
Proof. intros d s tk rest H Hne. rewrite read_token_skip_eq, H. cbn [rbind]. destruct (fst tk); congruence. Qed.

Ltac tok0 := unfold read_token; cbn [read_token_aux app]; cbn [N.eqb Pos.eqb orb].

Lemma tok_name : forall d txt n rest, name_text txt n -> token_ends rest ->
  read_token_skip d (47 :: txt ++ rest) = Ok ((TyName, n), rest).
Proof. intros d txt n rest H Hr. apply skip_of_read; [|discriminate]. tok0. rewrite (read_name_text txt n H rest Hr). reflexivity. Qed.

Lemma tok_lit : forall d txt v rest, literal_text 0 txt v ->
  read_token_skip d (40 :: (txt ++ [41]) ++ rest) = Ok ((TyLit, txt), rest).
Proof.
  intros d txt v rest H. apply skip_of_read; [|discriminate]. tok0. rewrite <- app_assoc. cbn [app].
  assert (E := read_literal_text 0 txt v H rest). change (N.of_nat 0 + 1) with 1 in E. rewrite E. reflexivity.
Qed.

Lemma hex_text_first : forall txt v, hex_text txt v -> match txt with [] => True | c :: _ => c <> 60 /\ c <> 62 end.
Proof.
  intros txt v H. destruct H as [|c txt v Hc _|h ws l x y txt v Hh _ _ _|h ws x Hh _]; auto.
  - cbn in Hc. lia.
  - inversion Hh; lia.
  - inversion Hh; lia.
Qed.

Lemma tok_hex : forall d txt v rest, hex_text txt v ->
  exists raw, read_token_skip d (60 :: (txt ++ [62]) ++ rest) = Ok ((TyHex, raw), rest) /\ hex_decode raw = Ok v.
Proof.
  intros d txt v rest H. destruct (read_hex_text txt v H rest) as (raw & Hr & Hd). exists raw. split; [|exact Hd].
  apply skip_of_read; [|discriminate]. tok0. rewrite <- app_assoc. cbn [app].
  destruct txt as [|c t].
  - cbn [app] in *. cbn [read_hex] in Hr. cbn in Hr. inversion Hr; subst. reflexivity.
  - apply hex_text_first in H. cbn [app] in *.
    destruct (match60_62 (A := res (token * bytes)) (c :: t ++ 62 :: rest) (fun t' => Ok ((TyDictBegin, @nil N), t')) (fun t' => Ok ((TyHex, @nil N), t'))
       (do '(cs, rest0) <- read_hex (c :: t ++ 62 :: rest);; Ok ((TyHex, cs), rest0))) as [(t' & E' & E)|[(t' & E' & E)|E]].
    + inversion E'; subst; lia.
    + inversion E'; subst; lia.
    + rewrite E, Hr. reflexivity.
Qed.

Lemma decimal_numeric : forall ds, Forall decimal_digit ds -> forallb is_numeric ds = true.
Proof. intros ds H. apply forallb_forall. intros c Hc. rewrite Forall_forall in H. apply H in Hc. unfold decimal_digit in Hc. unfold is_numeric. lia. Qed.

Lemma take_digits_decimal : forall ds rest v k, Forall decimal_digit ds ->
  take_digits 10 (ds ++ rest) v k = take_digits 10 rest (fold_left (fun a c => 10 * a + (c - 48)) ds v) (k + List.length ds)%nat.
Proof.
  induction ds as [|c ds IH]; intros rest v k H; cbn [app fold_left List.length].
  - rewrite Nat.add_0_r. reflexivity.
  - inversion H as [|? ? Hc Hds]; subst. cbn [take_digits].
    destruct (is_numeric_digit_in c) as (w & -> & -> & _). { unfold decimal_digit in Hc. unfold is_numeric. lia. }
    rewrite IH by exact Hds. f_equal; [f_equal; lia|lia].
Qed.

Lemma strtol_decimal : forall s neg ds, sign_text s neg -> ds <> [] -> Forall decimal_digit ds ->
  strtol 10 (s ++ ds) = Some (signed neg (decimal_value ds)).
Proof.
  intros s neg ds Hs Hne Hd. destruct ds as [|c ds]; [congruence|].
  assert (Hc : decimal_digit c) by (inversion Hd; assumption). unfold decimal_digit in Hc.
  assert (Hsp : is_cspace c = false) by (unfold is_cspace; lia).
  assert (T : take_digits 10 (c :: ds) 0 O = (decimal_value (c :: ds), S (List.length ds))).
  { assert (T := take_digits_decimal (c :: ds) [] 0 O Hd). rewrite app_nil_r in T. exact T. }
  assert (F : forall A (x : A) (f : list N -> A), (match c :: ds with 45 :: t => f t | _ => x end) = x).
  { intros. destruct c as [|p]; [reflexivity|]. do 6 (destruct p as [p|p|]; try reflexivity; try (exfalso; lia)). }
  unfold strtol.
  destruct Hs; cbn [app span].
  - rewrite Hsp.
    assert (E : (match c :: ds with 45 :: t => (true, t) | 43 :: t => (false, t) | _ => (false, c :: ds) end) = (false, c :: ds)).
    { destruct c as [|p]; [reflexivity|]. do 6 (destruct p as [p|p|]; try reflexivity; try (exfalso; lia)). }
    rewrite E. unfold skip_0x. replace (10 =? 16) with false by reflexivity. rewrite T. reflexivity.
  - replace (is_cspace 43) with false by reflexivity. unfold skip_0x. replace (10 =? 16) with false by reflexivity. rewrite T. reflexivity.
  - replace (is_cspace 45) with false by reflexivity. unfold skip_0x. replace (10 =? 16) with false by reflexivity. rewrite T. reflexivity.
Qed.

Lemma stoll_decimal : forall s neg ds, sign_text s neg -> ds <> [] -> Forall decimal_digit ds ->
  (- 2 ^ 63 <= signed neg (decimal_value ds) < 2 ^ 63)%Z -> stoll (s ++ ds) = Ok (signed neg (decimal_value ds)).
Proof.
  intros s neg ds Hs Hne Hd Hr. unfold stoll. rewrite (strtol_decimal s neg ds Hs Hne Hd).
  unfold int64_min, int64_max. match goal with |- (if ?b then _ else _) = _ => replace b with true by lia end. reflexivity.
Qed.

(** the leading character of a number: a sign or a digit, the rest are digits *)
Lemma number_split : forall s neg ds, sign_text s neg -> s ++ ds <> [] -> Forall decimal_digit ds ->
  exists c ds', s ++ ds = c :: ds' /\ Forall decimal_digit ds' /\ (is_numeric c || (c =? 43) || (c =? 45)) = true /\ c <> 46.
Proof.
  intros s neg ds Hs Hne Hd. destruct Hs; cbn [app] in *.
  - destruct ds as [|c ds]; [congruence|]. inversion Hd as [|? ? Hc Hds]; subst. unfold decimal_digit in Hc.
    exists c, ds. repeat split; auto; [unfold is_numeric; lia|lia].
  - exists 43, ds. repeat split; auto. lia.
  - exists 45, ds. repeat split; auto. lia.
Qed.

Lemma number_char : forall c, (is_numeric c || (c =? 43) || (c =? 45)) = true \/ c = 46 -> is_regular c = true /\ c <> 13 /\ c <> 10 /\ 
  ((c =? 32) || (c =? 12) || (c =? 9) || (c =? 0)) = false /\ c <> 37 /\ c <> 62 /\ c <> 60 /\ c <> 91 /\ c <> 93 /\ c <> 47 /\ c <> 40.
Proof. intros c H. unfold is_numeric in H. unfold is_regular, is_white, is_delim. lia. Qed.

Lemma regular_read : forall d c s, is_regular c = true -> read_token d (c :: s) = Ok (read_unknown d c s).
Proof.
  intros d c s H. unfold is_regular, is_white, is_delim in H. unfold read_token. cbn [read_token_aux].
  replace ((c =? 32) || (c =? 12) || (c =? 9) || (c =? 0)) with false by lia.
  replace (c =? 37) with false by lia. replace (c =? 10) with false by lia. replace (c =? 13) with false by lia.
  replace (c =? 62) with false by lia. replace (c =? 60) with false by lia. replace (c =? 91) with false by lia.
  replace (c =? 93) with false by lia. replace (c =? 47) with false by lia. replace (c =? 40) with false by lia. reflexivity.
Qed.

Lemma token_ends_numeric : forall rest, token_ends rest -> match rest with [] => True | c :: _ => is_numeric c = false /\ c <> 46 end.
Proof.
  intros [|c r] H; [exact I|]. apply token_ends_stop in H. unfold is_regular, is_white, is_delim in H. unfold is_numeric. lia.
Qed.

Lemma match46 : forall {A} (s : list N) (f : list N -> A) (g : A), match s with [] => True | c :: _ => c <> 46 end ->
  (match s with 46 :: t => f t | _ => g end) = g.
Proof.
  intros A [|c s] f g H; [reflexivity|]. destruct c as [|p]; [reflexivity|]. do 6 (destruct p as [p|p|]; try reflexivity). congruence.
Qed.

Lemma tok_int : forall d s neg ds rest, sign_text s neg -> ds <> [] -> Forall decimal_digit ds -> token_ends rest ->
  read_token_skip d ((s ++ ds) ++ rest) = Ok ((TyInt, s ++ ds), rest).
Proof.
  intros d s neg ds rest Hs Hne Hd Hr.
  destruct (number_split s neg ds Hs) as (c & ds' & E & Hd' & Hc & H46); [destruct s; destruct ds; cbn; congruence|assumption|].
  rewrite E. apply skip_of_read; [|discriminate]. cbn [app].
  destruct (number_char c (or_introl Hc)) as (Hreg & _). rewrite regular_read by exact Hreg. unfold read_unknown.
  replace (c =? 46) with false by lia. rewrite Hc. cbn [orb].
  apply token_ends_numeric in Hr.
  rewrite span_app; [|apply decimal_numeric; exact Hd'|destruct rest; [exact I|apply Hr]].
  rewrite match46; [reflexivity|]. destruct rest; [exact I|apply Hr].
Qed.

Lemma tok_real : forall d s neg ip fp rest, sign_text s neg -> Forall decimal_digit ip -> Forall decimal_digit fp ->
  token_ends rest ->
  read_token_skip d ((s ++ ip ++ [46] ++ fp) ++ rest) = Ok ((TyReal, s ++ ip ++ [46] ++ fp), rest).
Proof.
  intros d s neg ip fp rest Hs Hi Hf Hr.
  assert (Hr' : match rest with [] => True | x :: _ => is_numeric x = false end).
  { apply token_ends_numeric in Hr. destruct rest; [exact I|apply Hr]. }
  apply skip_of_read; [|discriminate].
  destruct (s ++ ip) as [|c0 t0] eqn:Esp.
  - destruct s; [|discriminate]. destruct ip; [|discriminate]. cbn [app].
    rewrite regular_read by reflexivity. unfold read_unknown. replace (46 =? 46) with true by reflexivity.
    rewrite !orb_true_r. rewrite span_app; [|apply decimal_numeric; exact Hf|exact Hr']. reflexivity.
  - destruct (number_split s neg ip Hs) as (c & ds' & E & Hd' & Hc & H46); [congruence|assumption|].
    replace ((s ++ ip ++ [46] ++ fp) ++ rest) with (((s ++ ip) ++ [46] ++ fp) ++ rest) by (rewrite <- !app_assoc; reflexivity).
    replace (s ++ ip ++ [46] ++ fp) with ((s ++ ip) ++ [46] ++ fp) by (rewrite <- !app_assoc; reflexivity).
    rewrite E. cbn [app]. destruct (number_char c (or_introl Hc)) as (Hreg & _). rewrite regular_read by exact Hreg. unfold read_unknown.
    replace (c =? 46) with false by lia. rewrite Hc. cbn [orb]. rewrite <- app_assoc. cbn [app].
    rewrite span_app; [|apply decimal_numeric; exact Hd'|reflexivity].
    rewrite span_app; [|apply decimal_numeric; exact Hf|exact Hr']. reflexivity.
Qed.

Lemma tok_word : forall d w rest, forallb is_regular w = true ->
  match w with [] => False | c :: _ => (is_numeric c || (c =? 43) || (c =? 45) || (c =? 46)) = false end ->
  token_ends rest -> d w <> TyEol -> read_token_skip d (w ++ rest) = Ok ((d w, w), rest).
Proof.
  intros d w rest Hw Hc Hr Hne. destruct w as [|c w]; [destruct Hc|].
  apply skip_of_read; [|exact Hne]. cbn [forallb] in Hw. apply andb_true_iff in Hw. destruct Hw as [Hreg Hw].
  cbn [app]. rewrite regular_read by exact Hreg. unfold read_unknown. rewrite Hc.
  rewrite span_app; [reflexivity|exact Hw|]. apply token_ends_stop. exact Hr.
Qed.

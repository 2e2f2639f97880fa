(** Equality and hashing of values. *)
From Coq Require Import List NArith ZArith Bool Lia.
From Verif.Model Require Import Base Arith Buffer Equality.
From Verif.Spec Require Import Equality.
From Verif.Proof Require Import Tac.
Import ListNotations.

Section Ind.
  Variable P : value -> Prop.
  Hypothesis Hnull : P VNull.
  Hypothesis Hbool : forall b, P (VBool b).
  Hypothesis Hint : forall q, P (VInt q).
  Hypothesis Hreal : forall q, P (VReal q).
  Hypothesis Hname : forall n, P (VName n).
  Hypothesis Hstr : forall h v, P (VStr h v).
  Hypothesis Href : forall n g, P (VRef n g).
  Hypothesis Harr : forall l, Forall P l -> P (VArr l).
  Hypothesis Hdict : forall l, Forall (fun e => P (snd e)) l -> P (VDict l).
  Hypothesis Hstream : forall l b, Forall (fun e => P (snd e)) l -> P (VStream l b).
  Fixpoint value_ind' (v : value) : P v :=
    match v with
    | VNull => Hnull | VBool b => Hbool b | VInt q => Hint q | VReal q => Hreal q | VName n => Hname n
    | VStr h s => Hstr h s | VRef n g => Href n g
    | VArr l => Harr l ((fix go l : Forall P l := match l with [] => Forall_nil _ | x :: t => Forall_cons _ (value_ind' x) (go t) end) l)
    | VDict l => Hdict l ((fix go l : Forall (fun e => P (snd e)) l :=
        match l with [] => Forall_nil _ | (k, x) :: t => Forall_cons (k, x) (value_ind' x) (go t) end) l)
    | VStream l b => Hstream l b ((fix go l : Forall (fun e => P (snd e)) l :=
        match l with [] => Forall_nil _ | (k, x) :: t => Forall_cons (k, x) (value_ind' x) (go t) end) l)
    end.
End Ind.

(** *** Doubles *)
Lemma same_real_eqb : forall a b, dbl_eqb a b = true <-> same_real a b.
Proof.
  intros a b. unfold dbl_eqb, same_real. rewrite Z.eqb_eq. split.
  - intros H. exists (Z.min (de a) (de b)). split; [lia|]. split; [lia|exact H].
  - intros (e & Ha & Hb & H). set (m := Z.min (de a) (de b)).
    assert (Hm : (e <= m)%Z) by lia.
    assert (E : forall d, (m <= de d)%Z -> (2 ^ (de d - e) = 2 ^ (de d - m) * 2 ^ (m - e))%Z).
    { intros d Hd. rewrite <- Z.pow_add_r by lia. f_equal. lia. }
    rewrite (E a), (E b) in H by lia. rewrite !Z.mul_assoc in H.
    apply Z.mul_reg_r in H; [exact H|]. assert (0 < 2 ^ (m - e))%Z by (apply Z.pow_pos_nonneg; lia). lia.
Qed.
Lemma same_real_refl : forall a, same_real a a.
Proof. intros a. exists (de a). split; [lia|]. split; [lia|reflexivity]. Qed.
Lemma same_real_sym : forall a b, same_real a b -> same_real b a.
Proof. intros a b (e & H1 & H2 & H3). exists e. auto. Qed.
Lemma same_real_trans : forall a b c, same_real a b -> same_real b c -> same_real a c.
Proof.
  intros a b c (e & Ha & Hb & H) (e' & Hb' & Hc & H'). set (m := Z.min e e').
  assert (S : forall d k, (k <= de d)%Z -> (m <= k)%Z -> (dm d * 2 ^ (de d - m) = dm d * 2 ^ (de d - k) * 2 ^ (k - m))%Z).
  { intros d k Hd Hk. rewrite <- Z.mul_assoc, <- Z.pow_add_r by lia. do 2 f_equal. lia. }
  exists m. split; [lia|]. split; [lia|].
  rewrite (S a e), H, <- (S b e), (S b e'), H', <- (S c e') by lia. reflexivity.
Qed.

(** *** [same] is an equivalence on plain values *)
Lemma Forall2_refl_in : forall {A} (R : A -> A -> Prop) l, Forall (fun x => R x x) l -> Forall2 R l l.
Proof. induction 1; constructor; assumption. Qed.

Lemma same_refl : forall v, plain v -> same v v.
Proof.
  induction v as [|b|q|q|n|h s|n g|l IH|l IH|l b IH] using value_ind'; intros Hp; inversion Hp; subst; try (constructor; fail).
  - apply (s_int _ _ z); left; reflexivity.
  - apply (s_int _ _ z); right; reflexivity.
  - constructor. apply same_real_refl.
  - constructor. apply Forall2_refl_in. rewrite Forall_forall in *. auto.
  - constructor. apply Forall2_refl_in. rewrite Forall_forall in *. auto.
  - constructor. apply Forall2_refl_in. rewrite Forall_forall in *. auto.
Qed.
Lemma same_sym : forall a b, same a b -> same b a.
Proof.
  induction a as [|x|q|q|n|h s|n g|l IH|l IH|l x IH] using value_ind'; intros b H; inversion H; subst; try (constructor; fail).
  - eapply s_int; eassumption.
  - constructor. apply same_real_sym. assumption.
  - constructor. clear H. rename H1 into H. revert l' H. induction IH as [|x l Hx Hl IHl]; intros l' H; inversion H; subst; constructor; auto.
  - constructor. clear H. rename H1 into H. revert l' H. induction IH as [|x l Hx Hl IHl]; intros l' H; inversion H as [|? ? ? ? (E & S)]; subst; constructor; auto.
  - constructor. clear H. rename H3 into H. revert l' H. induction IH as [|y l Hx Hl IHl]; intros l' H; inversion H as [|? ? ? ? (E & S)]; subst; constructor; auto.
Qed.
Lemma same_trans : forall a b c, same a b -> same b c -> same a c.
Proof.
  induction a as [|x|q|q|n|h s|n g|l IH|l IH|l x IH] using value_ind'; intros b c H H'; inversion H; subst; inversion H'; subst; try (constructor; fail).
  - assert (z0 = z). { match goal with H1 : holds_integer q' z, H2 : holds_integer q' z0 |- _ => destruct H1, H2; congruence end. }
    subst z0. eapply s_int; eassumption.
  - constructor. eapply same_real_trans; eassumption.
  - constructor. clear H H'. rename H1 into A, H2 into B. revert l' l'0 A B.
    induction IH as [|x l Hx Hl IHl]; intros l' l'0 A B; inversion A; subst; inversion B; subst; constructor; eauto.
  - constructor. clear H H'. rename H1 into A, H2 into B. revert l' l'0 A B.
    induction IH as [|x l Hx Hl IHl]; intros l' l'0 A B; inversion A as [|? ? ? ? (E1 & S1)]; subst; inversion B as [|? ? ? ? (E2 & S2)]; subst;
      constructor; [split; [congruence|eapply Hx; eassumption]|eapply IHl; eassumption].
  - constructor. clear H H'. rename H3 into A, H4 into B. revert l' l'0 A B.
    induction IH as [|y l Hx Hl IHl]; intros l' l'0 A B; inversion A as [|? ? ? ? (E1 & S1)]; subst; inversion B as [|? ? ? ? (E2 & S2)]; subst;
      constructor; [split; [congruence|eapply Hx; eassumption]|eapply IHl; eassumption].
Qed.

Lemma same_same_kinds : forall a b, same a b -> same_kinds a b.
Proof.
  induction a as [|x|q|q|n|h s|n g|l IH|l IH|l x IH] using value_ind'; intros b H; inversion H; subst; try exact I; cbn [same_kinds].
  - clear H. rename H1 into H. revert l' H. induction IH as [|x l Hx Hl IHl]; intros l' H; inversion H; subst; [exact I|]. split; [apply Hx; assumption|apply IHl; assumption].
  - clear H. rename H1 into H. revert l' H. induction IH as [|x l Hx Hl IHl]; intros l' H; inversion H as [|? ? ? ? (E & S)]; subst; [exact I|]. split; [apply Hx; assumption|apply IHl; assumption].
  - clear H. rename H3 into H. revert l' H. induction IH as [|y l Hx Hl IHl]; intros l' H; inversion H as [|? ? ? ? (E & S)]; subst; [exact I|]. split; [apply Hx; assumption|apply IHl; assumption].
Qed.
Lemma same_kinds_sym : forall a b, same_kinds a b -> same_kinds b a.
Proof.
  induction a as [|x|q|q|n|h s|n g|l IH|l IH|l x IH] using value_ind'; intros b H; destruct b; cbn [same_kinds] in *; try exact I; try contradiction.
  - rename l0 into l'. revert l' H. induction IH as [|x l Hx Hl IHl]; intros l' H; destruct l'; try exact I. destruct H. split; [apply Hx; assumption|apply IHl; assumption].
  - rename l0 into l'. revert l' H. induction IH as [|x l Hx Hl IHl]; intros l' H; destruct l'; try exact I. destruct H. split; [apply Hx; assumption|apply IHl; assumption].
  - rename l0 into l'. revert l' H. induction IH as [|y l Hx Hl IHl]; intros l' H; destruct l'; try exact I. destruct H. split; [apply Hx; assumption|apply IHl; assumption].
Qed.

(** *** The code computes [same] *)
Definition decides (r : res bool) (P : Prop) : Prop := exists b, r = Ok b /\ (b = true <-> P).
Lemma decides_false : forall (P : Prop), ~ P -> decides (Ok false) P.
Proof. intros P H. exists false. split; [reflexivity|]. split; [discriminate|contradiction]. Qed.
Lemma decides_bool : forall b (P : Prop), (b = true <-> P) -> decides (Ok b) P.
Proof. intros b P H. exists b. auto. Qed.

Lemma deref_plain : forall f v, plain v -> deref f v = Ok v.
Proof. intros f v H. unfold deref. inversion H; reflexivity. Qed.

Lemma safe_unsigned : forall z, (0 <= z < 2 ^ 63 - 1)%Z -> safe_convert int64_t uint64_t z = Ok z.
Proof.
  intros z H. unfold safe_convert, is_in_range. cbn [sgn bits int64_t uint64_t Bool.eqb].
  change (tmax int64_t) with (2 ^ 63 - 1)%Z. cif; [|lia].
  f_equal. unfold wrap. cbn [sgn bits int64_t andb]. change (Z.of_N 64) with 64%Z. change (64 - 1)%Z with 63%Z.
  rewrite Z.mod_small by lia. cif; lia.
Qed.

Lemma plain_integer : forall q, plain (VInt q) -> exists z, integer_value q = Ok z /\ holds_integer q z.
Proof.
  intros q H. inversion H; subst; exists z; cbn [integer_value].
  - split; [reflexivity|left; reflexivity].
  - split; [apply safe_unsigned; assumption|right; reflexivity].
Qed.
Lemma holds_unique : forall q x y, holds_integer q x -> holds_integer q y -> x = y.
Proof. intros q x y [->| ->] [E|E]; congruence. Qed.

Lemma buffer_equals_spec : forall a b, buffer_equals a b = true <-> a = b.
Proof. intros a b. unfold buffer_equals, beq. destruct (list_eq_dec N.eq_dec a b); split; congruence. Qed.

Definition eq_items (f : file_objects) := fix loop (l l' : list value) {struct l} : res bool :=
  match l, l' with
  | x :: t, y :: t' => do r <- equals f x y;; if r then loop t t' else Ok false
  | _, _ => Ok true
  end.
Definition eq_entries (f : file_objects) := fix loop (l l' : list (bytes * value)) {struct l} : res bool :=
  match l, l' with
  | (k, x) :: t, (k', y) :: t' =>
      if buffer_equals k k' then do r <- equals f x y;; if r then loop t t' else Ok false else Ok false
  | _, _ => Ok true
  end.
Definition kinds_items := fix loop (l l' : list value) {struct l} : Prop :=
  match l, l' with x :: t, y :: t' => same_kinds x y /\ loop t t' | _, _ => True end.
Definition kinds_entries := fix loop (l l' : list (bytes * value)) {struct l} : Prop :=
  match l, l' with x :: t, y :: t' => same_kinds (snd x) (snd y) /\ loop t t' | _, _ => True end.

Section Decide.
Variable f : file_objects.
Let good (a : value) : Prop := forall b, plain a -> plain b -> same_kinds a b -> decides (equals f a b) (same a b).

Lemma items_decide : forall l, Forall good l -> forall l', Forall plain l -> Forall plain l' -> kinds_items l l' -> length l = length l' ->
  decides (eq_items f l l') (Forall2 same l l').
Proof.
  induction 1 as [|x l Hx Hl IH]; intros l' Hp Hp' Hk Hlen; destruct l' as [|y l']; try discriminate.
  - apply decides_bool. split; auto.
  - inversion Hp; inversion Hp'; subst. cbn [kinds_items] in Hk. destruct Hk as (Hk & Hk').
    cbn [eq_items]. fold (eq_items f). destruct (Hx y) as (r & E & Hr); try assumption. rewrite E. cbn [rbind].
    destruct r.
    + destruct (IH l') as (r & E' & Hr'); try assumption; [cbn in Hlen; lia|]. exists r. split; [exact E'|].
      rewrite Hr'. split; intros H; [constructor; [apply Hr; reflexivity|exact H]|inversion H; assumption].
    + apply decides_false. intros H. inversion H; subst. apply Hr in H6 || (assert (false = true) by (apply Hr; assumption)). all: discriminate.
Qed.

Let same_entry (x y : bytes * value) : Prop := fst x = fst y /\ same (snd x) (snd y).
Lemma entries_decide : forall l, Forall (fun e => good (snd e)) l -> forall l', Forall (fun e => plain (snd e)) l ->
  Forall (fun e => plain (snd e)) l' -> kinds_entries l l' -> length l = length l' ->
  decides (eq_entries f l l') (Forall2 same_entry l l').
Proof.
  induction 1 as [|[k x] l Hx Hl IH]; intros l' Hp Hp' Hk Hlen; destruct l' as [|[k' y] l']; try discriminate.
  - apply decides_bool. split; auto.
  - inversion Hp; inversion Hp'; subst. cbn [kinds_entries] in Hk. destruct Hk as (Hk & Hk'). cbn [snd] in *.
    cbn [eq_entries]. fold (eq_entries f). destruct (buffer_equals k k') eqn:Ek.
    + apply buffer_equals_spec in Ek. subst k'. destruct (Hx y) as (r & E & Hr); try assumption. rewrite E. cbn [rbind].
      destruct r.
      * destruct (IH l') as (r & E' & Hr'); try assumption; [cbn in Hlen; lia|]. exists r. split; [exact E'|].
        rewrite Hr'. split; intros H; [constructor; [split; [reflexivity|apply Hr; reflexivity]|exact H]|inversion H; assumption].
      * apply decides_false. intros H. inversion H as [|? ? ? ? (_ & S)]; subst. apply Hr in S. discriminate.
    + apply decides_false. intros H. inversion H as [|? ? ? ? (E & _)]; subst. cbn in E. apply buffer_equals_spec in E. congruence.
Qed.

Lemma Forall2_len : forall {A B} (R : A -> B -> Prop) l l', Forall2 R l l' -> length l = length l'.
Proof. induction 1; cbn; congruence. Qed.

Lemma equals_decides : forall a, good a.
Proof.
  induction a as [|x|q|q|n|h s|n g|l IH|l IH|l x IH] using value_ind'; intros b Ha Hb Hk; cbn [equals]; unfold as_number;
  rewrite ?(deref_plain f b Hb); cbn [rbind].
  - destruct b; try (apply decides_false; intros H; inversion H; fail). apply decides_bool. split; [constructor|reflexivity].
  - destruct b; try (apply decides_false; intros H; inversion H; fail). apply decides_bool. rewrite Bool.eqb_true_iff.
    split; [intros ->; constructor|intros H; inversion H; reflexivity].
  - destruct b; try (apply decides_false; intros H; inversion H; fail); [|destruct Hk].
    destruct (plain_integer q Ha) as (z & E & Hz), (plain_integer q0 Hb) as (z' & E' & Hz'). cbn [rbind]. rewrite E, E'. cbn [rbind].
    apply decides_bool. rewrite Z.eqb_eq. split.
    + intros ->. eapply s_int; eassumption.
    + intros H. inversion H as [| |? ? w A B| | | | | |]; subst. rewrite (holds_unique _ _ _ Hz A), (holds_unique _ _ _ Hz' B). reflexivity.
  - destruct b; try (apply decides_false; intros H; inversion H; fail); [destruct Hk|].
    inversion Ha; inversion Hb; subst. cbn [rbind real_value]. apply decides_bool. rewrite same_real_eqb.
    split; [intros H; constructor; exact H|intros H; inversion H; assumption].
  - destruct b; try (apply decides_false; intros H; inversion H; fail). apply decides_bool. rewrite buffer_equals_spec.
    split; [intros ->; constructor|intros H; inversion H; reflexivity].
  - destruct b; try (apply decides_false; intros H; inversion H; fail). apply decides_bool. rewrite buffer_equals_spec.
    split; [intros ->; constructor|intros H; inversion H; reflexivity].
  - inversion Ha.
  - destruct b as [| | | | | | |l'| |]; try (apply decides_false; intros H; inversion H; fail).
    inversion Ha; inversion Hb; subst. fold (eq_items f). destruct (Nat.eqb_spec (length l) (length l')) as [Hl|Hl]; cbn [negb].
    + destruct (items_decide l IH l') as (r & E & Hr); try assumption. exists r. split; [exact E|]. rewrite Hr.
      split; [intros H; constructor; exact H|intros H; inversion H; assumption].
    + apply decides_false. intros H. inversion H as [| | | | | |? ? F| |]; subst. apply Forall2_len in F. congruence.
  - destruct b as [| | | | | | | |l'|]; try (apply decides_false; intros H; inversion H; fail).
    inversion Ha; inversion Hb; subst. fold (eq_entries f). destruct (Nat.eqb_spec (length l) (length l')) as [Hl|Hl]; cbn [negb].
    + destruct (entries_decide l IH l') as (r & E & Hr); try assumption. exists r. split; [exact E|]. rewrite Hr.
      split; [intros H; constructor; exact H|intros H; inversion H; assumption].
    + apply decides_false. intros H. inversion H as [| | | | | | |? ? F|]; subst. apply Forall2_len in F. congruence.
  - destruct b as [| | | | | | | | |l' x']; try (apply decides_false; intros H; inversion H; fail).
    inversion Ha; inversion Hb; subst. fold (eq_entries f). destruct (Nat.eqb_spec (length l) (length l')) as [Hl|Hl]; cbn [negb rbind].
    + destruct (entries_decide l IH l') as (r & E & Hr); try assumption. rewrite E. cbn [rbind]. destruct r.
      * apply decides_bool. rewrite buffer_equals_spec. split.
        -- intros <-. constructor. apply Hr. reflexivity.
        -- intros H. inversion H. reflexivity.
      * apply decides_false. intros H. inversion H as [| | | | | | | |? ? ? F]; subst. apply Hr in F. discriminate.
    + apply decides_false. intros H. inversion H as [| | | | | | | |? ? ? F]; subst. apply Forall2_len in F. congruence.
Qed.
End Decide.

(** *** Hashing *)
Section Hash.
Variables (hash_bool : bool -> N) (hash_long hash_ulong : Z -> N) (hash_double : dbl -> N) (hash_char hash_num hash_gen : N -> N).
Hypothesis unsigned_agrees : forall z, (0 <= z)%Z -> hash_ulong z = hash_long z.
Hypothesis double_agrees : forall a b, same_real a b -> hash_double a = hash_double b.
Let hv := hash_value hash_bool hash_long hash_ulong hash_double hash_char hash_num hash_gen.

Lemma same_hash : forall a b, plain a -> plain b -> same a b -> hv a = hv b.
Proof.
  induction a as [|x|q|q|n|h s|n g|l IH|l IH|l x IH] using value_ind'; intros b Ha Hb H; inversion H; subst; try reflexivity; unfold hv; cbn [hash_value].
  - assert (Hq : forall q z, plain (VInt q) -> holds_integer q z -> hash_numeric hash_long hash_ulong hash_double q = hash_long z).
    { intros q0 z0 Hp [->| ->]; [reflexivity|]. cbn. inversion Hp; subst. apply unsigned_agrees. lia. }
    rewrite (Hq q z), (Hq q' z) by assumption. reflexivity.
  - cbn. apply double_agrees. assumption.
  - fold hv. inversion Ha; inversion Hb; subst. clear H Ha Hb.
    generalize 0%N. rename H1 into HF. revert l' HF H4.
    induction IH as [|x l Hx Hl IHl]; intros l' HF Hp' acc; inversion HF; subst; [reflexivity|]. cbn [fold_left].
    inversion H2; inversion Hp'; subst. rewrite (Hx y) by assumption. apply IHl; assumption.
  - fold hv. inversion Ha; inversion Hb; subst. clear H Ha Hb.
    generalize 0%N. rename H1 into HF. revert l' HF H4.
    induction IH as [|[k x] l Hx Hl IHl]; intros l' HF Hp' acc; inversion HF as [|? [k' y] ? ? (Ek & S)]; subst; [reflexivity|]. cbn [fold_left].
    inversion H2; inversion Hp'; subst. cbn [fst snd] in *. subst k'. rewrite (Hx y) by assumption. apply IHl; assumption.
  - fold hv. assert (Hp : Forall (fun e => plain (snd e)) l) by (inversion Ha; assumption).
    assert (Hp' : Forall (fun e => plain (snd e)) l') by (inversion Hb; assumption). clear H Ha Hb.
    generalize 0%N. rename H3 into HF. revert l' HF Hp'.
    induction IH as [|[k y] l Hx Hl IHl]; intros l' HF Hp' acc; inversion HF as [|? [k' z] ? ? (Ek & S)]; subst; [reflexivity|].
    cbn [fold_left]. inversion Hp; inversion Hp'; subst. cbn [fst snd] in *. subst k'.
    rewrite (Hx z) by assumption. apply IHl; assumption.
Qed.
End Hash.

(** *** Dereferencing *)
Lemma leads_unique : forall f v a b, leads_to f v a -> leads_to f v b -> a = b.
Proof.
  intros f v a b H. revert b. induction H as [v Hv|n g v H IH]; intros b Hb.
  - inversion Hb as [u Hu E1 E2|n' g' u Hu E1 E2]; [congruence|]. subst. exfalso. eapply Hv; reflexivity.
  - inversion Hb as [u Hu E1 E2|n' g' u Hu E1 E2]; [exfalso; eapply Hu; reflexivity|]. subst. apply IH, Hu.
Qed.

(** one step along the references, then many *)
Inductive steps (f : file_objects) : value -> value -> Prop :=
| st_one : forall n g, steps f (VRef n g) (find_indirect f n g)
| st_more : forall n g v, steps f (find_indirect f n g) v -> steps f (VRef n g) v.
Lemma steps_snoc : forall f v n g, steps f v (VRef n g) -> steps f v (find_indirect f n g).
Proof.
  intros f v n g H. remember (VRef n g) as w eqn:E. revert n g E.
  induction H as [n0 g0|n0 g0 v H IH]; intros n g E; apply st_more.
  - rewrite E. constructor.
  - apply IH, E.
Qed.
Lemma leads_acyclic : forall f v w, leads_to f v w -> ~ steps f v v.
Proof.
  intros f v w H. induction H as [v Hv|n g v H IH]; intros Hs.
  - inversion Hs; subst; eapply Hv; eauto.
  - apply IH. inversion Hs as [n0 g0 E1 E2|n0 g0 v0 Hs' E1 E2]; subst.
    + rewrite E2. exact Hs.
    + apply steps_snoc, Hs'.
Qed.

Lemma seen_in : forall n g visited, seen n g visited = true <-> In (n, g) visited.
Proof.
  intros n g visited. unfold seen. rewrite existsb_exists. split.
  - intros ([a b] & Hin & E). apply andb_true_iff in E. destruct E as (E1 & E2). apply N.eqb_eq in E1, E2. subst. exact Hin.
  - intros H. exists (n, g). split; [exact H|]. rewrite !N.eqb_refl. reflexivity.
Qed.
Lemma find_missing : forall f n g, ~ In (n, g) (map fst f) -> find_indirect f n g = VNull.
Proof.
  induction f as [|[[a b] v] f IH]; intros n g H; [reflexivity|]. cbn [find_indirect]. cbn [map fst] in H.
  destruct (N.eqb_spec a n) as [->|]; [destruct (N.eqb_spec b g) as [->|]|]; cbn [andb].
  - exfalso. apply H. left. reflexivity.
  - apply IH. intros Hin. apply H. right. exact Hin.
  - apply IH. intros Hin. apply H. right. exact Hin.
Qed.

Lemma dereference_spec : forall fuel f visited v,
  NoDup visited -> (forall r, In r visited -> In r (map fst f)) -> (length f + 2 <= fuel + length visited)%nat ->
  (forall n g, In (n, g) visited -> steps f (VRef n g) v) ->
  (exists w, dereference fuel f visited v = Ok w /\ leads_to f v w) \/
  (dereference fuel f visited v = Throw EGeneral /\ forall w, ~ leads_to f v w).
Proof.
  induction fuel as [|fuel IH]; intros f visited v Hnd Hsub Hfuel Hreach.
  - exfalso. apply NoDup_incl_length in Hsub; [|exact Hnd]. rewrite map_length in Hsub. lia.
  - cbn [dereference]. destruct v as [|b|q|q|n|h s|n g|l|l|l b]; try (left; eexists; split; [reflexivity|]; constructor; intros; discriminate).
    destruct (seen n g visited) eqn:E.
    + right. split; [reflexivity|]. intros w Hw. apply seen_in in E. exact (leads_acyclic f _ w Hw (Hreach n g E)).
    + assert (Hni : ~ In (n, g) visited) by (intros Hin; apply seen_in in Hin; congruence).
      destruct (in_dec (fun a b : N * N => ltac:(decide equality; apply N.eq_dec)) (n, g) (map fst f)) as [Hin|Hnin].
      * destruct (IH f ((n, g) :: visited) (find_indirect f n g)) as [(w & Ew & Hw)|(Ew & Hw)].
        -- constructor; assumption.
        -- intros r [<-|Hr]; [exact Hin|apply Hsub, Hr].
        -- cbn [length]. lia.
        -- intros a b [E'|Hr]; [injection E' as <- <-; constructor|]. apply steps_snoc, Hreach, Hr.
        -- left. exists w. split; [exact Ew|constructor; exact Hw].
        -- right. split; [exact Ew|]. intros w Hl. inversion Hl as [u Hu|n' g' u Hu]; subst; [eapply Hu; reflexivity|]. apply (Hw w Hu).
      * assert (Hm : find_indirect f n g = VNull) by (apply find_missing, Hnin). rewrite Hm.
        destruct fuel as [|fuel]; [apply NoDup_incl_length in Hsub; [|exact Hnd]; rewrite map_length in Hsub; lia|].
        left. exists VNull. split; [reflexivity|]. constructor. rewrite Hm. constructor. discriminate.
Qed.

Lemma deref_spec : forall f v,
  (exists w, deref f v = Ok w /\ leads_to f v w) \/ (deref f v = Throw EGeneral /\ forall w, ~ leads_to f v w).
Proof.
  intros f v. apply dereference_spec; [constructor|intros r []|cbn; lia|intros n g []].
Qed.

From Coq Require Import List NArith ZArith Bool Lia String Permutation PeanoNat.
From Verif.Model Require Import Base Numbers SMap Object Xref StartXref Header FileWrite Observers.
From Verif.Spec Require Import Strings FileWrite Observers.
From Verif.Proof Require Import Tac FileWrite.
Import ListNotations.
Local Open Scope N_scope.

(** ** the table of the writer and the calls of the program *)

Lemma subscribed_app : forall i a b s, subscribed i (a ++ b) s = subscribed i b (subscribed i a s).
Proof. induction a as [|[x|x|x|x] a IH]; intros b s; cbn [app subscribed]; auto. Qed.

Lemma perform_app : forall a b w, perform_all w (a ++ b) = match perform_all w a with Some w' => perform_all w' b | None => None end.
Proof. induction a as [|o a IH]; intros b w; cbn [app perform_all]; [reflexivity|]. destruct (perform w o); auto. Qed.

Lemma addresses_app : forall a b, addresses (a ++ b) = (addresses a ++ addresses b)%list.
Proof. induction a as [|[x|x|x|x] a IH]; intros b; cbn [app addresses]; rewrite ?IH; reflexivity. Qed.

Lemma set_dead_nth : forall l i j, nth j (set_dead l i) no_observer =
  if (Nat.eqb i j && Nat.ltb j (List.length l))%bool then {| address := address (nth j l no_observer); alive := false |} else nth j l no_observer.
Proof.
  induction l as [|o l IH]; intros i j; [destruct i, j; cbn [set_dead nth List.length]; rewrite ?andb_false_r; reflexivity|].
  destruct i as [|i], j as [|j]; cbn [set_dead nth List.length Nat.eqb andb]; try reflexivity. rewrite IH. reflexivity.
Qed.
Lemma set_dead_length : forall l i, List.length (set_dead l i) = List.length l.
Proof. induction l as [|o l IH]; intros [|i]; cbn [set_dead List.length]; auto. Qed.

Lemma release_address : forall w i j, address_of (release_observer w i) j = address_of w j.
Proof. intros w i j. unfold address_of, release_observer. cbn [made]. rewrite set_dead_nth. destruct (_ && _)%bool; reflexivity. Qed.
Lemma release_alive : forall w i j, is_alive (release_observer w i) j = if Nat.eqb i j then false else is_alive w j.
Proof.
  intros w i j. unfold is_alive, release_observer. cbn [made]. rewrite set_dead_nth. destruct (Nat.eqb i j) eqn:E; cbn [andb]; [|reflexivity].
  destruct (Nat.ltb j (List.length (made w))) eqn:L; [reflexivity|]. apply Nat.ltb_ge in L. rewrite nth_overflow by exact L. reflexivity.
Qed.
Lemma alive_range : forall w i, is_alive w i = true -> (i < List.length (made w))%nat.
Proof. intros w i H. destruct (Nat.lt_ge_cases i (List.length (made w))) as [L|L]; [exact L|]. unfold is_alive in H. rewrite nth_overflow in H by exact L. discriminate. Qed.

(** what holds after every possible program *)
Record inv (calls : list op) (w : world) : Prop := {
  i_addr : map address (made w) = addresses calls;
  i_alive : forall i, is_alive w i = true <-> ((i < List.length (made w))%nat /\ ~ is_released calls i);
  i_live : forall i j, is_alive w i = true -> is_alive w j = true -> address_of w i = address_of w j -> i = j;
  i_keys : NoDup (map (address_of w) (table w));
  i_range : forall i, In i (table w) -> (i < List.length (made w))%nat;
  i_sub : forall i, In i (table w) -> is_subscribed calls i;
  i_rel : forall i, is_released calls i -> (i < List.length (made w))%nat
}.

Lemma key_some : forall w i k, key_of w i = Some k -> In k (table w) /\ address_of w i = address_of w k.
Proof. intros w i k H. apply find_some in H. destruct H as (A & B). split; [exact A|]. unfold same_key in B. apply N.eqb_eq in B. exact B. Qed.
Lemma key_none : forall w i k, key_of w i = None -> In k (table w) -> address_of w i <> address_of w k.
Proof. intros w i k H I E. apply (find_none _ _ H) in I. unfold same_key in I. apply N.eqb_neq in I. auto. Qed.

Lemma nodup_key : forall w a b, NoDup (map (address_of w) (table w)) -> In a (table w) -> In b (table w) -> address_of w a = address_of w b -> a = b.
Proof.
  intros w a b. generalize (address_of w) as f. generalize (table w) as l. induction l as [|x l IH]; intros f Hn Ha Hb He; [destruct Ha|].
  cbn [map] in Hn. apply NoDup_cons_iff in Hn. destruct Hn as (Hx & Hn). destruct Ha as [->|Ha], Hb as [->|Hb]; auto.
  - exfalso. apply Hx. rewrite He. apply in_map. exact Hb.
  - exfalso. apply Hx. rewrite <- He. apply in_map. exact Ha.
  - exact (IH f Hn Ha Hb He).
Qed.

Lemma nodup_filter_map : forall (f : nat -> N) p l, NoDup (map f l) -> NoDup (map f (filter p l)).
Proof.
  intros f p. induction l as [|x l IH]; cbn [map filter]; intros H; [constructor|]. apply NoDup_cons_iff in H. destruct H as (Hx & Hn).
  destruct (p x); [|apply IH; exact Hn]. cbn [map]. constructor; [|apply IH; exact Hn]. intros I. apply Hx. apply in_map_iff in I. destruct I as (y & E & I).
  apply filter_In in I. apply in_map_iff. exists y. tauto.
Qed.

Lemma inv_step : forall calls w o w', inv calls w -> perform w o = Some w' -> inv (calls ++ [o]) w'.
Proof.
  intros calls w o w' I H. destruct o as [a|i|i|i]; cbn [perform] in H.
  - destruct (existsb _ (made w)) eqn:E; [discriminate|]. assert (Hw : w' = {| made := made w ++ [{| address := a; alive := true |}]; table := table w |}) by congruence. clear H.
    assert (Ha : forall j, (j < List.length (made w))%nat -> address_of w' j = address_of w j).
    { intros j Hj. subst w'. unfold address_of. cbn [made]. rewrite app_nth1 by exact Hj. reflexivity. }
    assert (Hv : forall j, is_alive w' j = true <-> is_alive w j = true \/ j = List.length (made w)).
    { intros j. subst w'. unfold is_alive. cbn [made]. destruct (Nat.lt_trichotomy j (List.length (made w))) as [L|[L|L]].
      - rewrite app_nth1 by exact L. split; [auto|]. intros [X|X]; [exact X|lia].
      - rewrite app_nth2 by lia. replace (j - List.length (made w))%nat with 0%nat by lia. cbn. tauto.
      - rewrite nth_overflow by (rewrite app_length; cbn; lia). rewrite nth_overflow by lia. cbn. split; [discriminate|]. intros [X|X]; [discriminate|lia]. }
    assert (Hn : address_of w' (List.length (made w)) = a).
    { subst w'. unfold address_of. cbn [made]. rewrite app_nth2 by lia. rewrite Nat.sub_diag. reflexivity. }
    assert (Hno : forall j, is_alive w j = true -> address_of w j <> a).
    { intros j Hj Ej. assert (X : existsb (fun ob => (alive ob && (address ob =? a))%bool) (made w) = true); [|congruence].
      apply existsb_exists. exists (nth j (made w) no_observer). split; [apply nth_In; apply alive_range; exact Hj|].
      apply andb_true_iff. split; [exact Hj|]. apply N.eqb_eq. exact Ej. }
    constructor.
    + subst w'. cbn [made]. rewrite map_app, (i_addr _ _ I), addresses_app. reflexivity.
    + intros j. rewrite Hv. rewrite (i_alive _ _ I j). subst w'. cbn [made]. rewrite app_length. cbn [List.length].
      unfold is_released. rewrite in_app_iff. cbn [In].
      split.
      * intros [[X Y]|X]; [split; [lia|]; intros [Z|[Z|[]]]; [tauto|discriminate]|].
        split; [lia|]. intros [Z|[Z|[]]]; [|discriminate].
        apply (i_rel _ _ I) in Z. lia.
      * intros [X Y]. destruct (Nat.eq_dec j (List.length (made w))) as [->|Z]; [right; reflexivity|left]. split; [lia|tauto].
    + intros j k Hj Hk E2. apply Hv in Hj. apply Hv in Hk. destruct Hj as [Hj| ->], Hk as [Hk| ->]; try reflexivity.
      * rewrite !Ha in E2 by (apply alive_range; assumption). exact (i_live _ _ I _ _ Hj Hk E2).
      * rewrite Hn, Ha in E2 by (apply alive_range; assumption). destruct (Hno _ Hj E2).
      * rewrite Hn, Ha in E2 by (apply alive_range; assumption). symmetry in E2. destruct (Hno _ Hk E2).
    + subst w'. cbn [table]. rewrite (map_ext_in (address_of _) (address_of w)); [exact (i_keys _ _ I)|]. intros j Hj. apply Ha. apply (i_range _ _ I). exact Hj.
    + subst w'. cbn [table made]. intros j Hj. rewrite app_length. apply (i_range _ _ I) in Hj. lia.
    + subst w'. cbn [table]. intros j Hj. unfold is_subscribed. rewrite subscribed_app. cbn [subscribed]. apply (i_sub _ _ I). exact Hj.
    + subst w'. cbn [made]. intros j Hj. unfold is_released in Hj. rewrite in_app_iff in Hj. destruct Hj as [Hj|[Hj|[]]]; [|discriminate]. apply (i_rel _ _ I) in Hj. rewrite app_length. lia.
  - destruct (is_alive w i) eqn:E; [|discriminate]. assert (Hw : w' = release_observer w i) by congruence. clear H. subst w'. constructor.
    + rewrite addresses_app. cbn [addresses]. rewrite app_nil_r, <- (i_addr _ _ I). unfold release_observer. cbn [made]. clear.
      revert i. induction (made w) as [|o l IH]; intros [|i]; cbn [set_dead map]; try reflexivity. rewrite IH. reflexivity.
    + intros j. rewrite release_alive. unfold release_observer, is_released. cbn [made]. rewrite set_dead_length, in_app_iff. cbn [In].
      destruct (Nat.eqb i j) eqn:E2.
      * apply Nat.eqb_eq in E2. subst j. split; [discriminate|]. intros (_ & Z). exfalso. apply Z. auto.
      * apply Nat.eqb_neq in E2. rewrite (i_alive _ _ I j). unfold is_released. split; intros (X & Y); (split; [exact X|]); [intros [Z|[Z|[]]]; [tauto|congruence]|tauto].
    + intros j k. rewrite !release_alive, !release_address. destruct (Nat.eqb i j), (Nat.eqb i k); try discriminate. apply (i_live _ _ I).
    + rewrite (map_ext _ (address_of w)) by (intros j; apply release_address). exact (i_keys _ _ I).
    + unfold release_observer. cbn [made table]. rewrite set_dead_length. exact (i_range _ _ I).
    + unfold release_observer. cbn [made table]. intros j Hj. unfold is_subscribed. rewrite subscribed_app. cbn [subscribed]. apply (i_sub _ _ I). exact Hj.
    + unfold release_observer. cbn [made]. rewrite set_dead_length. intros j Hj. unfold is_released in Hj. rewrite in_app_iff in Hj. destruct Hj as [Hj|[Hj|[]]]; [exact (i_rel _ _ I _ Hj)|].
      assert (i = j) by congruence. subst j. apply alive_range. exact E.
  - destruct (is_alive w i) eqn:E; [|discriminate]. assert (Hw : w' = subscribe w i) by congruence. clear H. subst w'.
    assert (Hm : made (subscribe w i) = made w) by (unfold subscribe; destruct (key_of w i); reflexivity).
    assert (Hal : forall j, is_alive (subscribe w i) j = is_alive w j) by (intros j; unfold is_alive; rewrite Hm; reflexivity).
    assert (Had : forall j, address_of (subscribe w i) j = address_of w j) by (intros j; unfold address_of; rewrite Hm; reflexivity).
    assert (Hr : forall j, is_released (calls ++ [OSubscribe i]) j <-> is_released calls j).
    { intros j. unfold is_released. rewrite in_app_iff. cbn [In]. split; [intros [Z|[Z|[]]]; [exact Z|discriminate]|auto]. }
    constructor.
    + rewrite addresses_app. cbn [addresses]. rewrite app_nil_r, Hm. exact (i_addr _ _ I).
    + intros j. rewrite Hal, Hm, Hr. exact (i_alive _ _ I j).
    + intros j k. rewrite !Hal, !Had. exact (i_live _ _ I j k).
    + rewrite (map_ext _ (address_of w)) by exact Had. unfold subscribe. destruct (key_of w i) eqn:K; [exact (i_keys _ _ I)|]. cbn [table map]. constructor; [|exact (i_keys _ _ I)].
      intros X. apply in_map_iff in X. destruct X as (k & X & Y). apply (key_none _ _ _ K Y). congruence.
    + intros j. rewrite Hm. unfold subscribe. destruct (key_of w i) eqn:K; [exact (i_range _ _ I j)|]. cbn [table In]. intros [<-|X]; [apply alive_range; exact E|exact (i_range _ _ I j X)].
    + intros j Hj. unfold is_subscribed. rewrite subscribed_app. cbn [subscribed]. destruct (Nat.eqb j i) eqn:E2; [reflexivity|]. apply Nat.eqb_neq in E2. apply (i_sub _ _ I).
      unfold subscribe in Hj. destruct (key_of w i) eqn:K; [exact Hj|]. cbn [table In] in Hj. destruct Hj as [X|X]; [congruence|exact X].
    + intros j. rewrite Hm, Hr. exact (i_rel _ _ I j).
  - destruct (is_alive w i) eqn:E; [|discriminate]. assert (Hw : w' = unsubscribe w i) by congruence. clear H. subst w'.
    assert (Hm : made (unsubscribe w i) = made w) by (unfold unsubscribe; destruct (key_of w i); reflexivity).
    assert (Hal : forall j, is_alive (unsubscribe w i) j = is_alive w j) by (intros j; unfold is_alive; rewrite Hm; reflexivity).
    assert (Had : forall j, address_of (unsubscribe w i) j = address_of w j) by (intros j; unfold address_of; rewrite Hm; reflexivity).
    assert (Hr : forall j, is_released (calls ++ [OUnsubscribe i]) j <-> is_released calls j).
    { intros j. unfold is_released. rewrite in_app_iff. cbn [In]. split; [intros [Z|[Z|[]]]; [exact Z|discriminate]|auto]. }
    assert (Hin : forall j, In j (table (unsubscribe w i)) -> In j (table w)).
    { intros j. unfold unsubscribe. destruct (key_of w i); cbn [table]; [|auto]. intros X. apply filter_In in X. tauto. }
    constructor.
    + rewrite addresses_app. cbn [addresses]. rewrite app_nil_r, Hm. exact (i_addr _ _ I).
    + intros j. rewrite Hal, Hm, Hr. exact (i_alive _ _ I j).
    + intros j k. rewrite !Hal, !Had. exact (i_live _ _ I j k).
    + rewrite (map_ext _ (address_of w)) by exact Had. unfold unsubscribe. destruct (key_of w i) eqn:K; [|exact (i_keys _ _ I)]. cbn [table].
      apply nodup_filter_map. exact (i_keys _ _ I).
    + intros j Hj. rewrite Hm. exact (i_range _ _ I j (Hin j Hj)).
    + intros j Hj. unfold is_subscribed. rewrite subscribed_app. cbn [subscribed]. destruct (Nat.eqb j i) eqn:E2; [|exact (i_sub _ _ I j (Hin j Hj))]. exfalso.
      apply Nat.eqb_eq in E2. subst j. assert (Hi := Hin i Hj). unfold unsubscribe in Hj. destruct (key_of w i) as [k|] eqn:K.
      * cbn [table] in Hj. apply filter_In in Hj. destruct Hj as (_ & X). destruct (key_some _ _ _ K) as (A & B).
        assert (k = i) by (apply (nodup_key w k i (i_keys _ _ I) A Hi); congruence). subst k. rewrite Nat.eqb_refl in X. discriminate.
      * exact (key_none _ _ _ K Hi eq_refl).
    + intros j. rewrite Hm, Hr. exact (i_rel _ _ I j).
Qed.

Lemma inv_all : forall calls w, perform_all start calls = Some w -> inv calls w.
Proof.
  induction calls as [|o calls IH] using rev_ind; intros w H.
  - cbn in H. assert (w = start) by congruence. subst w. constructor; cbn; try tauto.
    + intros i. destruct i; cbn; split; try discriminate; lia.
    + intros i j. destruct i; discriminate.
    + constructor.
  - rewrite perform_app in H. destruct (perform_all start calls) as [w1|] eqn:E; [|discriminate]. cbn [perform_all] in H. destruct (perform w1 o) as [w2|] eqn:E2; [|discriminate].
    assert (w2 = w) by congruence. subst w2. exact (inv_step _ _ _ _ (IH _ eq_refl) E2).
Qed.

Lemma address_nth : forall calls w i, inv calls w -> (i < List.length (made w))%nat -> address_of w i = nth i (addresses calls) 0.
Proof. intros calls w i I H. rewrite <- (i_addr _ _ I). unfold address_of. change 0 with (address no_observer). symmetry. apply map_nth. Qed.

(** an observer that is released is not subscribed any more, if the program is tidy *)
Lemma tidy_front : forall a b, tidy (a ++ b) -> tidy a.
Proof. intros a b H before i after E. apply (H before i (after ++ b)%list). rewrite E, <- app_assoc. reflexivity. Qed.
Lemma tidy_released : forall calls w i, perform_all start calls = Some w -> tidy calls -> is_released calls i -> ~ is_subscribed calls i.
Proof.
  induction calls as [|o calls IH] using rev_ind; intros w i H T R; [destruct R|].
  assert (Hp := H). rewrite perform_app in H. destruct (perform_all start calls) as [w1|] eqn:E; [|discriminate]. cbn [perform_all] in H.
  unfold is_subscribed. rewrite subscribed_app. unfold is_released in R. rewrite in_app_iff in R. destruct R as [R|[R|[]]].
  - assert (X := IH w1 i eq_refl (tidy_front _ _ T) R). destruct o as [a|j|j|j]; cbn [subscribed]; try exact X.
    + destruct (Nat.eqb i j) eqn:E2; [|exact X]. apply Nat.eqb_eq in E2. subst j. cbn [perform] in H. destruct (is_alive w1 i) eqn:A; [|discriminate].
      apply (i_alive _ _ (inv_all _ _ E)) in A. tauto.
    + destruct (Nat.eqb i j); [discriminate|exact X].
  - subst o. cbn [subscribed]. apply (T calls i []). reflexivity.
Qed.

Lemma same_address : forall calls w i k, perform_all start calls = Some w -> tidy calls \/ fresh_addresses calls -> is_alive w i = true -> In k (table w) ->
  address_of w i = address_of w k -> i = k.
Proof.
  intros calls w i k H T A K E. assert (I := inv_all _ _ H). destruct T as [T|T].
  - destruct (is_alive w k) eqn:Ak; [exact (i_live _ _ I _ _ A Ak E)|]. exfalso. apply (tidy_released calls w k H T); [|exact (i_sub _ _ I _ K)].
    assert (Hr := i_range _ _ I _ K). destruct (in_dec (fun a b : op => ltac:(decide equality; (apply N.eq_dec || apply Nat.eq_dec))) (ORelease k) calls) as [X|X]; [exact X|].
    assert (is_alive w k = true) by (apply (i_alive _ _ I); split; assumption). congruence.
  - assert (Li := alive_range _ _ A). assert (Lk := i_range _ _ I _ K). rewrite !(address_nth _ _ _ I) in E by assumption.
    apply (proj1 (NoDup_nth _ 0) T); [| |exact E]; rewrite <- (i_addr _ _ I), map_length; assumption.
Qed.

Lemma fresh_front : forall a b, fresh_addresses (a ++ b) -> fresh_addresses a.
Proof.
  intros a b. unfold fresh_addresses. rewrite addresses_app. intros H. induction (addresses a) as [|x l IH]; [constructor|].
  cbn [app] in H. apply NoDup_cons_iff in H. destruct H as (H1 & H2). constructor; [intros X; apply H1; apply in_app_iff; auto|auto].
Qed.

Lemma subscribed_kept : forall calls w i, perform_all start calls = Some w -> tidy calls \/ fresh_addresses calls -> is_subscribed calls i -> In i (table w).
Proof.
  induction calls as [|o calls IH] using rev_ind; intros w i H T S; [discriminate|].
  rewrite perform_app in H. destruct (perform_all start calls) as [w1|] eqn:E; [|discriminate]. cbn [perform_all] in H.
  assert (T1 : tidy calls \/ fresh_addresses calls) by (destruct T as [T|T]; [left; exact (tidy_front _ _ T)|right; exact (fresh_front _ _ T)]).
  specialize (IH w1 i eq_refl T1). unfold is_subscribed in S. rewrite subscribed_app in S. destruct o as [a|j|j|j]; cbn [perform subscribed] in *.
  - destruct (existsb _ (made w1)); [discriminate|]. assert (Hw : w = {| made := made w1 ++ [{| address := a; alive := true |}]; table := table w1 |}) by congruence.
    subst w. cbn [table]. apply IH. exact S.
  - destruct (is_alive w1 j); [|discriminate]. assert (w = release_observer w1 j) by congruence. subst w. apply IH. exact S.
  - destruct (is_alive w1 j) eqn:A; [|discriminate]. assert (w = subscribe w1 j) by congruence. subst w. clear H. unfold subscribe. destruct (Nat.eqb i j) eqn:E2.
    + apply Nat.eqb_eq in E2. subst j. destruct (key_of w1 i) as [k|] eqn:K; [|cbn; auto]. destruct (key_some _ _ _ K) as (K1 & K2).
      rewrite (same_address calls w1 i k E T1 A K1 K2). exact K1.
    + destruct (key_of w1 j); [|cbn [table In]; right]; apply IH; exact S.
  - destruct (is_alive w1 j) eqn:A; [|discriminate]. assert (w = unsubscribe w1 j) by congruence. subst w. clear H. destruct (Nat.eqb i j) eqn:E2; [discriminate|].
    apply Nat.eqb_neq in E2. unfold unsubscribe. destruct (key_of w1 j) as [k|] eqn:K; [|exact (IH S)]. destruct (key_some _ _ _ K) as (K1 & K2).
    assert (j = k) by exact (same_address calls w1 j k E T1 A K1 K2). subst k. cbn [table]. apply filter_In. split; [exact (IH S)|].
    apply negb_true_iff, Nat.eqb_neq. congruence.
Qed.

(** ** what is told *)

Lemma heard_app : forall i a b, heard i (a ++ b) = (heard i b ++ heard i a)%list.
Proof. intros i a b. unfold heard. rewrite rev_app_distr, filter_app, map_app. reflexivity. Qed.

Definition live (w : world) (i : nat) : bool := (existsb (Nat.eqb i) (table w) && is_alive w i)%bool.

Section Told.
Variable order : list nat -> list nat.
Variable rehash : list nat -> bool.

(** observers that only listen *)
Lemma notify_quiet : forall react position ev rest w h, (forall i h, react i h ev = AProceed) ->
  notify rehash react position ev rest w h = (Done, w, (rev (map (fun i => (i, ev, position)) (filter (live w) rest)) ++ h)%list).
Proof.
  intros react position ev rest w h Hr. revert h. induction rest as [|i t IH]; intros h; cbn [notify filter]; [reflexivity|].
  unfold live at 1. destruct (existsb (Nat.eqb i) (table w)) eqn:E1; cbn [negb andb]; [|apply IH].
  destruct (is_alive w i) eqn:E2; cbn [negb]; [|apply IH]. rewrite Hr, IH. cbn [map rev]. rewrite <- app_assoc. reflexivity.
Qed.

Lemma heard_round : forall i ev position l, NoDup l ->
  heard i (rev (map (fun j => (j, ev, position)) l)) = if existsb (Nat.eqb i) l then [(ev, position)] else [].
Proof.
  intros i ev position l H. unfold heard. rewrite rev_involutive. induction l as [|j l IH]; [reflexivity|]. apply NoDup_cons_iff in H. destruct H as (H1 & H2).
  cbn [map filter fst existsb]. destruct (Nat.eqb i j) eqn:E.
  - cbn [map orb snd fst]. rewrite (IH H2). destruct (existsb (Nat.eqb i) l) eqn:X; [|reflexivity]. exfalso. apply existsb_exists in X. destruct X as (y & X1 & X2).
    apply Nat.eqb_eq in X2. apply Nat.eqb_eq in E. subst. contradiction.
  - cbn [orb]. apply IH. exact H2.
Qed.

(** the calls of a list of steps, with the size of the output, starting at [size] *)
Fixpoint calls_of (size : N) (steps : list step) : list (event * N) :=
  match steps with
  | [] => []
  | Put b :: t => calls_of (size + N.of_nat (List.length b)) t
  | Tell ev :: t => (ev, size) :: calls_of size t
  | FlushOut :: t => calls_of size t
  | Fail _ :: _ => []
  end.
Fixpoint text_of (steps : list step) : bytes :=
  match steps with
  | [] => []
  | Put b :: t => b ++ text_of t
  | Fail _ :: _ => []
  | _ :: t => text_of t
  end.
Fixpoint fine (steps : list step) : bool :=
  match steps with
  | [] => true
  | Fail _ :: _ => false
  | _ :: t => fine t
  end.

Lemma calls_app : forall a b size, fine a = true -> calls_of size (a ++ b) = (calls_of size a ++ calls_of (size + N.of_nat (List.length (text_of a))) b)%list.
Proof.
  induction a as [|[x|x| |x] a IH]; intros b size H; cbn [app calls_of text_of fine] in *; try discriminate.
  - rewrite N.add_0_r. reflexivity.
  - rewrite IH by exact H. rewrite app_length, Nat2N.inj_add, N.add_assoc. reflexivity.
  - rewrite IH by exact H. reflexivity.
  - rewrite IH by exact H. reflexivity.
Qed.
Lemma text_app : forall a b, fine a = true -> text_of (a ++ b) = (text_of a ++ text_of b)%list.
Proof. induction a as [|[x|x| |x] a IH]; intros b H; cbn [app text_of fine] in *; try discriminate; rewrite ?IH by exact H; rewrite <- ?app_assoc; reflexivity. Qed.
Lemma fine_app : forall a b, fine (a ++ b) = (fine a && fine b)%bool.
Proof. induction a as [|[x|x| |x] a IH]; intros b; cbn [app fine]; auto. Qed.

Lemma run_quiet : forall react w, (forall l, Permutation (order l) l) -> NoDup (table w) ->
  forall steps out h, fine steps = true -> (forall ev, In (Tell ev) steps -> forall i h, react i h ev = AProceed) ->
  exists out' h', run_steps order rehash react steps out w h = (Done, out', w, h') /\ out_bytes out' = (out_bytes out ++ text_of steps)%list /\
    forall i, heard i h' = (heard i h ++ if live w i then calls_of (N.of_nat (List.length (out_bytes out))) steps else [])%list.
Proof.
  intros react w Ho Hn. induction steps as [|st steps IH]; intros out h Hf Hr.
  - exists out, h. cbn [run_steps text_of calls_of]. split; [reflexivity|]. split; [symmetry; apply app_nil_r|]. intros i. destruct (live w i); rewrite app_nil_r; reflexivity.
  - destruct st as [b|ev| |e]; cbn [run_steps fine text_of calls_of] in *; [| | |discriminate].
    + destruct (IH {| out_bytes := out_bytes out ++ b; out_flushed := out_flushed out |} h Hf (fun ev X => Hr ev (or_intror X))) as (out' & h' & E1 & E2 & E3). exists out', h'. split; [exact E1|].
      cbn [out_bytes] in E2, E3. split; [rewrite E2, <- app_assoc; reflexivity|]. intros i. rewrite (E3 i), app_length, Nat2N.inj_add. reflexivity.
    + rewrite notify_quiet by (apply Hr; left; reflexivity). cbv iota beta.
      destruct (IH out (rev (map (fun i => (i, ev, N.of_nat (List.length (out_bytes out)))) (filter (live w) (order (table w)))) ++ h)%list Hf (fun ev X => Hr ev (or_intror X))) as (out' & h' & E1 & E2 & E3).
      exists out', h'. split; [exact E1|]. split; [exact E2|]. intros i. rewrite (E3 i), heard_app, <- app_assoc. f_equal.
      rewrite heard_round by (apply NoDup_filter; apply (Permutation_NoDup (l := table w)); [apply Permutation_sym; apply Ho|exact Hn]).
      assert (X : existsb (Nat.eqb i) (filter (live w) (order (table w))) = live w i).
      { destruct (live w i) eqn:L.
        - apply existsb_exists. exists i. split; [|apply Nat.eqb_refl]. apply filter_In. split; [|exact L]. unfold live in L. apply andb_true_iff in L. destruct L as (L & _).
          apply existsb_exists in L. destruct L as (y & L1 & L2). apply Nat.eqb_eq in L2. subst y. apply (Permutation_in i (Permutation_sym (Ho (table w)))). exact L1.
        - destruct (existsb _ _) eqn:L1; [|reflexivity]. apply existsb_exists in L1. destruct L1 as (y & L1 & L2). apply Nat.eqb_eq in L2. subst y. apply filter_In in L1. destruct L1; congruence. }
      rewrite X. destruct (live w i); reflexivity.
    + destruct (IH {| out_bytes := out_bytes out; out_flushed := N.of_nat (List.length (out_bytes out)) |} h Hf (fun ev X => Hr ev (or_intror X))) as (out' & h' & E1 & E2 & E3). exists out', h'.
      split; [exact E1|]. split; [exact E2|exact E3].
Qed.

(** ** the objects *)

Lemma objects_fine : forall l pos, fine (objects_steps pos l) = true.
Proof.
  induction l as [|[e o] l IH]; intros pos; cbn [objects_steps]; [reflexivity|].
  destruct (xdata e) as [n|f [|]|a b] eqn:E; try apply IH; rewrite fine_app, IH; unfold entry_steps, object_steps; rewrite E; reflexivity.
Qed.

Lemma entry_text : forall pos e o, text_of (entry_steps pos e o) = write_object (xnum e) (xgen e) o.
Proof. intros pos e o. unfold entry_steps, object_steps. destruct (xdata e); cbn [app text_of]; apply app_nil_r. Qed.
Lemma entry_fine : forall pos e o, fine (entry_steps pos e o) = true.
Proof. intros pos e o. unfold entry_steps, object_steps. destruct (xdata e); reflexivity. Qed.

Lemma objects_text : forall l pos, text_of (objects_steps pos l) = fst (write_objects None pos l).
Proof.
  induction l as [|[e o] l IH]; intros pos; cbn [objects_steps write_objects is_self]; [reflexivity|].
  destruct (xdata e) as [n|f [|]|a b] eqn:E; rewrite ?text_app by apply entry_fine; rewrite ?entry_text, IH;
    destruct (write_objects None _ l); reflexivity.
Qed.

Lemma entry_calls : forall pos e o, in_use e = true -> calls_of pos (entry_steps pos e o) = object_told e pos (pos + N.of_nat (List.length (write_object (xnum e) (xgen e) o))).
Proof. intros pos e o H. unfold entry_steps, object_steps, object_told, object_events, in_use in *. destruct (xdata e); reflexivity. Qed.

Lemma objects_told : forall l pos before after, N.of_nat (List.length before) = pos ->
  let text := fst (write_objects None pos l) in
  told (before ++ text ++ after) pos (map fst l) (calls_of pos (objects_steps pos l)) (pos + N.of_nat (List.length text)).
Proof.
  induction l as [|[e o] l IH]; intros pos before after Hp; cbn zeta; cbn [objects_steps write_objects is_self map fst].
  - cbn [List.length]. change (N.of_nat 0) with 0. rewrite N.add_0_r. constructor.
  - assert (Hemit : in_use e = true -> let b := write_object (xnum e) (xgen e) o in let text := (b ++ fst (write_objects None (pos + N.of_nat (List.length b)) l))%list in
      told (before ++ text ++ after) pos (e :: map fst l) (calls_of pos (entry_steps pos e o ++ objects_steps (pos + N.of_nat (List.length b)) l)) (pos + N.of_nat (List.length text))).
    { intros Hu b text. rewrite calls_app by apply entry_fine. rewrite entry_text, entry_calls by exact Hu. fold b.
      assert (Hb : b = (object_heading (xnum e) (xgen e) ++ to_pdf o ++ [10] ++ str "endobj" ++ [10])%list).
      { unfold b, write_object, object_heading, to_string_N. rewrite <- !app_assoc. reflexivity. }
      assert (X := IH (pos + N.of_nat (List.length b)) (before ++ b)%list after). cbn zeta in X.
      rewrite app_length, Nat2N.inj_add in X. specialize (X ltac:(lia)).
      replace (before ++ text ++ after)%list with ((before ++ b) ++ fst (write_objects None (pos + N.of_nat (List.length b)) l) ++ after)%list by (unfold text; rewrite <- !app_assoc; reflexivity).
      replace (pos + N.of_nat (List.length text)) with (pos + N.of_nat (List.length b) + N.of_nat (List.length (fst (write_objects None (pos + N.of_nat (List.length b)) l))))
        by (unfold text; rewrite app_length; lia).
      rewrite Hb at 3. rewrite Hb in X at 5. apply (told_object _ pos e (to_pdf o)); [exact Hu| |rewrite <- Hb in *; exact X].
      rewrite <- Hb. split; [lia|]. exists before, (fst (write_objects None (pos + N.of_nat (List.length b)) l) ++ after)%list. split; [rewrite <- app_assoc; reflexivity|]. lia. }
    destruct (xdata e) as [n|f [|]|a b] eqn:E.
    + specialize (IH pos before after Hp). cbn zeta in IH. destruct (write_objects None pos l). apply told_unused; [unfold in_use; rewrite E; reflexivity|exact IH].
    + assert (Hu : in_use e = true) by (unfold in_use; rewrite E; reflexivity). specialize (Hemit Hu). cbn zeta in Hemit.
      destruct (write_objects None (pos + _) l). exact Hemit.
    + specialize (IH pos before after Hp). cbn zeta in IH. destruct (write_objects None pos l). apply told_unused; [unfold in_use; rewrite E; reflexivity|exact IH].
    + assert (Hu : in_use e = true) by (unfold in_use; rewrite E; reflexivity). specialize (Hemit Hu). cbn zeta in Hemit.
      destruct (write_objects None (pos + _) l). exact Hemit.
Qed.

(** ** any observers *)

Lemma notify_result : forall react position ev rest w h r w' h', notify rehash react position ev rest w h = (r, w', h') ->
  exists new, h' = (new ++ h)%list /\ Forall (fun c => snd (fst c) = ev /\ snd c = position) new /\
  match r with
  | Cancelled rv => exists i h0, h' = (i, ev, position) :: h0 /\ react i h0 ev = ARefuse rv
  | Failed _ => False
  | _ => True
  end.
Proof.
  intros react position ev. induction rest as [|i t IH]; intros w h r w' h' H; cbn [notify] in H.
  - apply pair_equal_spec in H. destruct H as (H & <-). apply pair_equal_spec in H. destruct H as (<- & _). exists []. repeat split. constructor.
  - assert (Hrec : forall w1, notify rehash react position ev t w1 ((i, ev, position) :: h) = (r, w', h') -> exists new, h' = (new ++ h)%list /\
      Forall (fun c => snd (fst c) = ev /\ snd c = position) new /\
      match r with Cancelled rv => exists i h0, h' = (i, ev, position) :: h0 /\ react i h0 ev = ARefuse rv | Failed _ => False | _ => True end).
    { intros w1 E. apply IH in E. destruct E as (new & E1 & E2 & E3). exists (new ++ [(i, ev, position)])%list. split; [rewrite <- app_assoc; exact E1|]. split; [|exact E3].
      apply Forall_app. split; [exact E2|]. repeat constructor. }
    assert (Hend : forall r1, (r1 = Undefined \/ exists rv, r1 = Cancelled rv /\ react i h ev = ARefuse rv) -> (r1, w, (i, ev, position) :: h) = (r, w', h') -> exists new, h' = (new ++ h)%list /\
      Forall (fun c => snd (fst c) = ev /\ snd c = position) new /\
      match r with Cancelled rv => exists i h0, h' = (i, ev, position) :: h0 /\ react i h0 ev = ARefuse rv | Failed _ => False | _ => True end).
    { intros r1 C E. apply pair_equal_spec in E. destruct E as (E & <-). apply pair_equal_spec in E. destruct E as (<- & _). exists [(i, ev, position)].
      split; [reflexivity|]. split; [repeat constructor|]. destruct C as [->|(rv & -> & C)]; [exact I|]. exists i, h. auto. }
    destruct (negb (existsb (Nat.eqb i) (table w))); [apply (IH _ _ _ _ _ H)|]. destruct (negb (is_alive w i)); [apply (IH _ _ _ _ _ H)|]. cbv zeta in H.
    destruct (react i h ev) as [|rv|j|j|j] eqn:Er.
    + exact (Hrec _ H).
    + exact (Hend _ (or_intror (ex_intro _ rv (conj eq_refl eq_refl))) H).
    + destruct (negb (is_alive w j)); [exact (Hend _ (or_introl eq_refl) H)|]. destruct (key_of w j); [exact (Hrec _ H)|]. destruct (rehash (table w)); [exact (Hend _ (or_introl eq_refl) H)|exact (Hrec _ H)].
    + destruct (negb (is_alive w j)); [exact (Hend _ (or_introl eq_refl) H)|]. destruct (key_of w j) as [k|]; [|exact (Hrec _ H)]. destruct (Nat.eqb k i); [exact (Hend _ (or_introl eq_refl) H)|exact (Hrec _ H)].
    + destruct (negb (is_alive w j)); [exact (Hend _ (or_introl eq_refl) H)|exact (Hrec _ H)].
Qed.

Lemma run_result : forall react steps out w h r out' w' h', run_steps order rehash react steps out w h = (r, out', w', h') ->
  exists pre post new, steps = (pre ++ post)%list /\ fine pre = true /\ out_bytes out' = (out_bytes out ++ text_of pre)%list /\
    (In FlushOut pre \/ out_flushed out' = out_flushed out) /\ h' = (new ++ h)%list /\
    Forall (fun c => In (Tell (snd (fst c))) (pre ++ firstn 1 post)) new /\
  match r with
  | Done => post = []
  | Cancelled rv => exists i ev h0 post', post = Tell ev :: post' /\ h' = (i, ev, N.of_nat (List.length (out_bytes out'))) :: h0 /\ react i h0 ev = ARefuse rv
  | Failed e => exists post', post = Fail (Throw e) :: post'
  | Undefined => True
  end.
Proof.
  intros react. induction steps as [|st steps IH]; intros out w h r out' w' h' H.
  - cbn [run_steps] in H. apply pair_equal_spec in H. destruct H as (H & <-). apply pair_equal_spec in H. destruct H as (H & _). apply pair_equal_spec in H. destruct H as (<- & <-).
    exists [], [], []. cbn. rewrite app_nil_r. repeat split; auto.
  - destruct st as [b|ev| |e]; cbn [run_steps] in H.
    + apply IH in H. destruct H as (pre & post & new & E1 & E2 & E3 & E4 & E5 & E6 & E7). exists (Put b :: pre), post, new. cbn [app fine text_of]. subst steps. cbn [out_bytes out_flushed] in *.
      split; [reflexivity|]. split; [exact E2|]. split; [rewrite E3, <- app_assoc; reflexivity|]. split; [destruct E4 as [X|X]; [left; right; exact X|right; exact X]|].
      split; [exact E5|]. split; [|exact E7]. apply (Forall_impl _ (fun c X => or_intror X) E6).
    + destruct (notify rehash react _ ev (order (table w)) w h) as [[r1 w1] h1] eqn:En. assert (Hn := notify_result _ _ _ _ _ _ _ _ _ En). destruct Hn as (new & N1 & N2 & N3).
      destruct r1 as [|rv|e1|].
      * apply IH in H. destruct H as (pre & post & new2 & E1 & E2 & E3 & E4 & E5 & E6 & E7). exists (Tell ev :: pre), post, (new2 ++ new)%list. cbn [app fine text_of]. subst steps.
        split; [reflexivity|]. split; [exact E2|]. split; [exact E3|]. split; [destruct E4 as [X|X]; [left; right; exact X|right; exact X]|].
        split; [rewrite E5, N1, app_assoc; reflexivity|]. split; [|exact E7]. apply Forall_app. split; [apply (Forall_impl _ (fun c X => or_intror X) E6)|].
        apply (Forall_impl _ (fun c X => or_introl (f_equal Tell (eq_sym (proj1 X)))) N2).
      * apply pair_equal_spec in H. destruct H as (H & <-). apply pair_equal_spec in H. destruct H as (H & _). apply pair_equal_spec in H. destruct H as (<- & <-).
        destruct N3 as (i & h0 & N3 & N4). exists [], (Tell ev :: steps), new. cbn [app fine text_of firstn]. rewrite app_nil_r.
        split; [reflexivity|]. split; [reflexivity|]. split; [reflexivity|]. split; [right; reflexivity|]. split; [exact N1|]. split; [|exists i, ev, h0, steps; auto].
        apply (Forall_impl _ (fun c X => or_introl (f_equal Tell (eq_sym (proj1 X)))) N2).
      * destruct N3.
      * apply pair_equal_spec in H. destruct H as (H & <-). apply pair_equal_spec in H. destruct H as (H & _). apply pair_equal_spec in H. destruct H as (<- & <-).
        exists [], (Tell ev :: steps), new. cbn [app fine text_of firstn]. rewrite app_nil_r.
        split; [reflexivity|]. split; [reflexivity|]. split; [reflexivity|]. split; [right; reflexivity|]. split; [exact N1|]. split; [|exact I].
        apply (Forall_impl _ (fun c X => or_introl (f_equal Tell (eq_sym (proj1 X)))) N2).
    + apply IH in H. destruct H as (pre & post & new & E1 & E2 & E3 & E4 & E5 & E6 & E7). exists (FlushOut :: pre), post, new. cbn [app fine text_of]. subst steps. cbn [out_bytes out_flushed] in *.
      split; [reflexivity|]. split; [exact E2|]. split; [exact E3|]. split; [left; left; reflexivity|].
      split; [exact E5|]. split; [|exact E7]. apply (Forall_impl _ (fun c X => or_intror X) E6).
    + exists [], (Fail e :: steps), []. cbn [app fine text_of firstn]. rewrite app_nil_r.
      assert (Hx : (r, out', w', h') = (match e with Throw e1 => Failed e1 | _ => Undefined end, out, w, h)) by (destruct e; congruence).
      apply pair_equal_spec in Hx. destruct Hx as (Hx & ->). apply pair_equal_spec in Hx. destruct Hx as (Hx & _). apply pair_equal_spec in Hx. destruct Hx as (-> & ->).
      split; [reflexivity|]. split; [reflexivity|]. split; [reflexivity|]. split; [right; reflexivity|]. split; [reflexivity|]. split; [constructor|]. destruct e; eauto.
Qed.

(** observers that answer only *)
Lemma notify_polite : forall react position ev rest w h r w' h', (forall i h ev, react i h ev = AProceed \/ exists rv, react i h ev = ARefuse rv) ->
  notify rehash react position ev rest w h = (r, w', h') -> w' = w /\ exists new, h' = (new ++ h)%list /\ Forall (fun c => live w (fst (fst c)) = true) new.
Proof.
  intros react position ev rest w h r w' h' Hp. revert h. induction rest as [|i t IH]; intros h H; cbn [notify] in H.
  - split; [congruence|]. exists []. split; [cbn; congruence|constructor].
  - destruct (existsb (Nat.eqb i) (table w)) eqn:E1; cbn [negb] in H; [|exact (IH _ H)]. destruct (is_alive w i) eqn:E2; cbn [negb] in H; [|exact (IH _ H)].
    assert (L : live w i = true) by (unfold live; rewrite E1, E2; reflexivity). destruct (Hp i h ev) as [R|(rv & R)]; rewrite R in H.
    + apply IH in H. destruct H as (W & new & E & F). split; [exact W|]. exists (new ++ [(i, ev, position)])%list. split; [rewrite <- app_assoc; exact E|].
      apply Forall_app. split; [exact F|]. constructor; [exact L|constructor].
    + split; [congruence|]. exists [(i, ev, position)]. split; [cbn; congruence|]. constructor; [exact L|constructor].
Qed.
Lemma run_polite : forall react steps out w h r out' w' h', (forall i h ev, react i h ev = AProceed \/ exists rv, react i h ev = ARefuse rv) ->
  run_steps order rehash react steps out w h = (r, out', w', h') -> w' = w /\ exists new, h' = (new ++ h)%list /\ Forall (fun c => live w (fst (fst c)) = true) new.
Proof.
  intros react steps out w h r out' w' h' Hp. revert out h. induction steps as [|st steps IH]; intros out h H; cbn [run_steps] in H.
  - split; [congruence|]. exists []. split; [cbn; congruence|constructor].
  - destruct st as [b|ev| |e]; [exact (IH _ _ H)| |exact (IH _ _ H)|].
    + destruct (notify rehash react _ ev (order (table w)) w h) as [[r1 w1] h1] eqn:En. apply notify_polite in En; [|exact Hp]. destruct En as (-> & new & -> & F).
      destruct r1; [| | |]; [apply IH in H; destruct H as (W & new2 & E & F2); split; [exact W|]; exists (new2 ++ new)%list; split; [rewrite <- app_assoc; exact E|apply Forall_app; auto]| | |];
        (split; [congruence|]; exists new; split; [congruence|exact F]).
    + split; [destruct e; congruence|]. exists []. split; [destruct e; cbn; congruence|constructor].
Qed.

Lemma heard_none : forall i h, Forall (fun c => fst (fst c) <> i) h -> heard i h = [].
Proof.
  intros i h F. unfold heard. assert (X : filter (fun c : nat * event * N => Nat.eqb i (fst (fst c))) (rev h) = []); [|rewrite X; reflexivity].
  apply Forall_rev in F. induction F as [|c l Hc F IH]; [reflexivity|]. cbn [filter]. destruct (Nat.eqb i (fst (fst c))) eqn:E; [|exact IH]. apply Nat.eqb_eq in E. congruence.
Qed.

(** ** the whole save *)
Lemma save_steps_shape : forall v l trailer file, write_table_file v l trailer = Ok file ->
  exists l1 table offset, recalculate_lengths l = Ok l1 /\
  let pos := N.of_nat (List.length (write_header v)) in
  save_steps v l trailer = ((([Tell EInitializing; Put (write_header v)] ++ objects_steps pos l1) ++ [Put [10%N]; Put table; Put offset]) ++ [Tell EBeforeFlush; FlushOut; Tell EAfterFlush; Tell EFinalizing])%list /\
  file = (write_header v ++ fst (write_objects None pos l1) ++ [10%N] ++ table ++ offset)%list.
Proof.
  intros v l trailer file H. unfold write_table_file in H. cbv zeta in H. apply rbind_ok in H. destruct H as (l1 & H1 & H).
  destruct (write_objects None (N.of_nat (List.length (write_header v))) l1) as [body l2] eqn:E. apply rbind_ok in H. destruct H as (table & H2 & H). apply Ok_inj in H.
  exists l1, table, (write_xref_offset (Z.of_nat (List.length (write_header v ++ body ++ [10])))). split; [exact H1|]. cbv zeta. split.
  - unfold save_steps. cbv zeta. rewrite H1, E, H2. rewrite <- !app_assoc. reflexivity.
  - rewrite E. cbn [fst]. symmetry. exact H.
Qed.

Lemma objects_events : forall l pos st, In st (objects_steps pos l) -> st <> FlushOut /\ st <> Tell EInitializing /\ st <> Tell EBeforeFlush /\ st <> Tell EAfterFlush /\ st <> Tell EFinalizing.
Proof.
  induction l as [|[e o] l IH]; intros pos st H; cbn [objects_steps] in H; [destruct H|].
  assert (Hx : In st (entry_steps pos e o) -> st <> FlushOut /\ st <> Tell EInitializing /\ st <> Tell EBeforeFlush /\ st <> Tell EAfterFlush /\ st <> Tell EFinalizing).
  { clear H. intros H. unfold entry_steps, object_steps in H. apply in_app_iff in H. destruct H as [H|H].
    - destruct (xdata e); cbn [In] in H; try tauto. destruct H as [<-|[<-|[]]]; repeat split; discriminate.
    - cbn [In] in H. destruct H as [<-|[<-|[<-|[<-|[<-|[]]]]]]; repeat split; discriminate. }
  destruct (xdata e) as [n|f [|]|a b]; try (exact (IH _ _ H)); apply in_app_iff in H; destruct H as [H|H]; [exact (Hx H)|exact (IH _ _ H)|exact (Hx H)|exact (IH _ _ H)].
Qed.
End Told.

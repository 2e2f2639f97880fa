From Coq Require Import List NArith Bool Lia Arith.
From Verif.Model Require Import Base Errors.
From Verif.Spec Require Import Errors.
From Verif.Proof Require Import Tac.
Import ListNotations.
Local Open Scope N_scope.

Lemma c_string_says : forall what text, ~ In 0 text -> (what = text \/ exists rest, what = text ++ 0 :: rest) -> c_string what = text.
Proof.
  intros what text. revert what. induction text as [|b text IH]; intros what H0 [->|(rest & ->)]; try reflexivity.
  - cbn [c_string]. destruct (b =? 0) eqn:E; [exfalso; apply H0; left; lia|]. f_equal. apply IH; [intros X; apply H0; right; exact X|left; reflexivity].
  - cbn [c_string app]. destruct (b =? 0) eqn:E; [exfalso; apply H0; left; lia|]. f_equal. apply IH; [intros X; apply H0; right; exact X|right; exists rest; reflexivity].
Qed.
Lemma c_string_no0 : forall what, ~ In 0 (c_string what).
Proof. induction what as [|b what IH]; cbn [c_string]; [intros []|]. destruct (b =? 0) eqn:E; [intros []|]. intros [->|X]; [lia|auto]. Qed.

Definition whole (s : slot) : Prop := List.length (s_message s) = max_message /\ (s_length s <= max_message - 1)%nat.
Lemma set_message_ok : forall text s, whole s -> exists m, set_message text s = Ok {| s_error := s_error s; s_length := Nat.min (List.length text + 1) 255; s_message := m |} /\
  List.length m = max_message /\ firstn (Nat.min (List.length text + 1) 255) m = firstn 255 (text ++ [0%N]).
Proof.
  intros text s (Hl & _). unfold set_message, copy_bytes. change (max_message - 1)%nat with 255%nat.
  remember (Nat.min (List.length text + 1) 255) as k. unfold max_message in *.
  assert (Hk1 : (k <= List.length (text ++ [0%N]))%nat) by (rewrite app_length; cbn [List.length]; lia).
  replace (Nat.leb k (List.length (text ++ [0%N]))) with true by (symmetry; apply Nat.leb_le; exact Hk1).
  replace (Nat.leb k (List.length (s_message s))) with true by (symmetry; apply Nat.leb_le; lia).
  cbn [andb rbind]. eexists. split; [reflexivity|].
  set (m := firstn k (text ++ [0%N]) ++ skipn k (s_message s)).
  assert (Hm : List.length m = 256%nat) by (unfold m; rewrite app_length, firstn_length, skipn_length; lia).
  split.
  - unfold set_at. rewrite app_length, firstn_length. cbn [List.length]. rewrite skipn_length, Hm. lia.
  - unfold set_at. rewrite firstn_app, firstn_firstn. rewrite firstn_length, Hm.
    replace (k - Nat.min k 256)%nat with 0%nat by lia. rewrite firstn_O. rewrite app_nil_r. replace (Nat.min k k) with k by lia.
    unfold m. rewrite firstn_app, firstn_firstn, firstn_length. replace (Nat.min k k) with k by lia.
    replace (k - Nat.min k (List.length (text ++ [0%N])))%nat with 0%nat by lia. rewrite firstn_O. rewrite app_nil_r.
    destruct (Nat.le_gt_cases (List.length text + 1) 255).
    + rewrite !firstn_all2 by (rewrite app_length; cbn [List.length]; lia). reflexivity.
    + replace k with 255%nat by lia. reflexivity.
Qed.
(** what a slot says after a throwing call *)
Definition reflects (e : ending) (s : slot) : Prop :=
  s_error s = ending_code e /\
  match e with
  | Throws _ what | ThrowsStd what => s_length s = Nat.min (List.length (c_string what) + 1) 255 /\ firstn (s_length s) (s_message s) = firstn 255 (c_string what ++ [0])
  | _ => True
  end.
Lemma call_ok : forall e s, whole s -> exists s', call e s = Ok (ending_code e, s') /\ whole s' /\ (throws e -> reflects e s') /\ (~ throws e -> s' = s).
Proof.
  intros e s H. assert (He : forall c, whole (set_error c s)) by (intros c; exact H). destruct e as [c|k what|what|]; cbn [call ending_code].
  - exists s. split; [reflexivity|]. split; [exact H|]. split; [intros []|reflexivity].
  - destruct (set_message_ok (c_string what) _ (He (code k))) as (m & E & L & F). rewrite E. cbn [rbind]. eexists. split; [reflexivity|].
    split; [|split]. { split; [exact L|cbn [s_length]; unfold max_message; lia]. } { intros _. split; [reflexivity|]. split; [reflexivity|exact F]. } intros X. exfalso. apply X. exact I.
  - destruct (set_message_ok (c_string what) _ (He (code KGeneral))) as (m & E & L & F). rewrite E. cbn [rbind]. eexists. split; [reflexivity|].
    split; [|split]. { split; [exact L|cbn [s_length]; unfold max_message; lia]. } { intros _. split; [reflexivity|]. split; [reflexivity|exact F]. } intros X. exfalso. apply X. exact I.
  - eexists. split; [reflexivity|]. split; [exact H|]. split; [intros _; split; [reflexivity|exact I]|]. intros X. exfalso. apply X. exact I.
Qed.
Lemma fresh_whole : whole fresh.
Proof. split; [reflexivity|cbn; lia]. Qed.

Lemma throws_dec : forall e, throws e \/ ~ throws e.
Proof. intros []; cbn; tauto. Qed.
Lemma history_ok : forall h st, (forall t, whole (st t)) -> exists st', history h st = Ok (map (fun p => ending_code (snd p)) h, st') /\
  (forall t, whole (st' t)) /\
  (forall t, never_thrown t h -> st' t = st t) /\
  (forall t e, last_thrown t h e -> reflects e (st' t)).
Proof.
  induction h as [|[t0 e0] h IH]; intros st Hw; cbn [history map].
  - exists st. split; [reflexivity|]. split; [exact Hw|]. split; [reflexivity|]. intros t e (b & a & E & _). destruct b; discriminate.
  - destruct (call_ok e0 (st t0) (Hw t0)) as (s & Ec & Hs & Ht & Hn). rewrite Ec. cbn [rbind].
    destruct (IH (fun x => if x =? t0 then s else st x)) as (st' & E & Hw' & Hnv & Hl).
    { intros t. destruct (t =? t0); [exact Hs|apply Hw]. }
    rewrite E. cbn [rbind snd]. exists st'. split; [reflexivity|]. split; [exact Hw'|]. split.
    + intros t Hnt. rewrite Hnv; [|intros e He; apply Hnt; right; exact He]. destruct (t =? t0) eqn:Et; [|reflexivity].
      assert (t = t0) by lia. subst t. apply Hn. apply (Hnt e0). left. reflexivity.
    + intros t e (b & a & Eh & Hte & Ha). destruct b as [|p b]; injection Eh as.
      * subst t0 e0 a. rewrite Hnv by exact Ha. rewrite N.eqb_refl. apply Ht, Hte.
      * apply Hl. exists b, a. repeat split; assumption.
Qed.

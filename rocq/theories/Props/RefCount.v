(** C37: lifetime of objects. *)
From Coq Require Import List NArith Bool PeanoNat Lia.
From Verif.Model Require Import Base RefCount.
From Verif.Spec Require Import RefCount.
From Verif.Proof Require Import Tac RefCount.
Import ListNotations.
Local Open Scope nat_scope.

(** One thread: after every history of creating, copying, moving, swapping and dropping handles and taking, locking and dropping weak
    references nothing undefined happened, an object is destroyed exactly when no handle is left, never twice, and every weak
    reference says whether its object lives.  Missing from the full claim: objects copied as values, and locking by a thread
    while another one drops the last handle; both are refuted below. *)
Theorem C37_lifetimes_partial : forall lazy n m l, (N.of_nat n + 5 < 2 ^ 32)%N -> history lazy (empty_store n m) l ->
  exists s, perform_all lazy (empty_store n m) l = Ok s /\ lifetimes_right s.
Proof.
  intros lazy n m l Hn H. destruct (history_ok lazy l _ (empty_inv n m Hn) H) as (s & E & Hw & _). exists s. split; [exact E|]. now apply inv_right.
Qed.

(** What was destroyed stays destroyed, whatever follows. *)
Theorem C37_stays_destroyed : forall lazy s l s' o, perform_all lazy s l = Ok s' -> was_destroyed s o -> was_destroyed s' o.
Proof.
  intros lazy s l s' o H Ho. apply perform_all_later in H. destruct H as (k & H). unfold was_destroyed in *. rewrite H. apply in_or_app. now right.
Qed.

(** Dropping the last handle destroys the object in that very step. *)
Theorem C37_last_handle_destroys : forall lazy n m l i o s, (N.of_nat n + 5 < 2 ^ 32)%N -> history lazy (empty_store n m) l ->
  perform_all lazy (empty_store n m) l = Ok s -> nth_error (handles s) i = Some (Some o) ->
  exists s', perform lazy s (AReset i) = Ok s' /\
    ((forall j, j <> i -> nth_error (handles s) j <> Some (Some o)) -> destroyed s' = o :: destroyed s) /\
    ((exists j, j <> i /\ nth_error (handles s) j = Some (Some o)) -> destroyed s' = destroyed s).
Proof.
  intros lazy n m l i o s Hn Hh He Hi. destruct (history_ok lazy l _ (empty_inv n m Hn) Hh) as (s0 & E & Hw). assert (s0 = s) by congruence. subst s0.
  pose proof (nth_error_lt _ _ _ Hi) as Hlt.
  destruct (perform_ok lazy s (AReset i) Hw Hlt) as (s' & E' & Hw' & _). exists s'. split; [exact E'|]. cbn [perform] in E'. rewrite (handle_nth _ _ _ Hi) in E'.
  destruct (release_shape _ _ _ E') as (Hd & Hhs & Hm'). cbn [set_handle destroyed handles cells] in Hd, Hhs, Hm'.
  assert (Hhd : forall j, nth_error (handles s') j = nth_error (set_nth (handles s) i None) j) by (intros j; now rewrite Hhs).
  destruct Hw as (Hinv & _). destruct Hw' as (Hinv' & _).
  destruct (inv_right _ Hinv) as (R1 & R2 & _). destruct (inv_right _ Hinv') as (S1 & S2 & S3 & _).
  assert (Hm : made s o) by (apply R1; exists i; exact Hi).
  assert (Hmade' : made s' o) by (unfold made in *; rewrite Hm'; exact Hm).
  split.
  - intros Hno. destruct Hd as [Hd|Hd]; [exact Hd|]. exfalso.
    assert (Hdest : was_destroyed s' o).
    { apply (S2 o Hmade'). intros (j & Hj). rewrite Hhd in Hj. destruct (Nat.eq_dec j i) as [->|Hne].
      - rewrite set_nth_eq in Hj by exact Hlt. discriminate.
      - rewrite set_nth_other in Hj by congruence. exact (Hno j Hne Hj). }
    unfold was_destroyed in Hdest. rewrite Hd in Hdest. apply (R2 o Hm) in Hdest. apply Hdest. exists i. exact Hi.
  - intros (j & Hne & Hj). destruct Hd as [Hd|Hd]; [|exact Hd]. exfalso.
    assert (Hdest : was_destroyed s' o) by (unfold was_destroyed; rewrite Hd; now left).
    apply (S2 o Hmade') in Hdest. apply Hdest. exists j. rewrite Hhd, set_nth_other by congruence. exact Hj.
Qed.

(** Any number of threads: whatever the schedule, as long as weak references are locked only by threads that own a handle, nothing
    undefined happens, the object is deleted at most once and only after the last handle, and it is deleted when all threads are
    done and no handle is left.  (A step a thread cannot make ends the run.) *)
Theorem C37_threads_partial : forall n l, (N.of_nat (List.length l) < 2 ^ 32 - 2)%N -> schedule_ok (first_state n) l ->
  run_schedule (first_state n) l = Throw ENotModelled \/
  exists s, run_schedule (first_state n) l = Ok s /\ deletions s <= 1 /\
    (gone s = true -> all_owned (threads s) = 0) /\
    (all_owned (threads s) > 0 -> active s = true) /\
    ((forall t x, nth_error (threads s) t = Some x -> place_of x = PIdle) -> all_owned (threads s) = 0 -> deletions s = 1 /\ gone s = true /\ active s = false).
Proof.
  intros n l Hl Hs. destruct (run_safe l (first_state n) (first_safe n)) as [(s & E & H)|E]; [|exact Hs| |left; exact E].
  - unfold fits. cbn [first_state threads all_owned owned]. destruct (zeros n) as (-> & _). lia.
  - right. exists s. split; [exact E|]. destruct H as [Ht Hp Hg Ha Ha2 Htold Hlk]. split; [|split; [|split]].
    + destruct (all_owned (threads s) =? 0); lia.
    + intros Hgone. destruct (all_owned (threads s)) eqn:Eo; [reflexivity|]. rewrite (Ha (Ha2 ltac:(lia))) in Hgone. discriminate.
    + intros Hpos. apply Ha2. lia.
    + intros Hidle Hz. rewrite (idle_busy _ Hidle), Hz in Hp. cbn in Hp. assert (gone s = true) by (apply Hg; exact Hp). split; [exact Hp|]. split; [assumption|].
      destruct (active s); [rewrite (Ha eq_refl) in *; congruence|reflexivity].
Qed.

(** Locking is not atomic: one thread asks whether the object lives, another drops the last handle, the first goes on with a
    pointer to deleted memory.  Both IsActive and the increment are atomic, the pair is not. *)
Theorem C37_lock_race_refuted : exists l,
  run_schedule (first_state 1) l = Undef /\ Forall (fun p => fst p < 2) l.
Proof. exists [(1, SCheck); (0, SDrop); (0, SGo); (0, SGo); (1, SGo)]. split; [vm_compute; reflexivity|]. repeat (constructor; cbn; try lia). Qed.

(** An object copied as a value shares the flag of the original: when the copy dies the weak reference of the living original
    says it is dead. *)
Theorem C37_copied_object_refuted : exists l s, perform_all false (empty_store 2 1) l = Ok s /\
  refers_weakly s 0 0 /\ held s 0 /\ is_active s 0 = false.
Proof.
  eexists [ANew 0; AWeak 0 0; AClone 1 0; AReset 1], _. split; [vm_compute; reflexivity|].
  split; [exists 0; reflexivity|]. split; [exists 0; reflexivity|reflexivity].
Qed.

(** An object that is assigned another one takes over its flag: its own weak references go on saying that it lives after it was
    destroyed, and locking one is undefined. *)
Theorem C37_assigned_object_refuted : exists l s, perform_all false (empty_store 3 2) l = Ok s /\
  refers_weakly s 0 0 /\ was_destroyed s 0 /\ is_active s 0 = true /\ perform false s (ALock 2 0) = Undef.
Proof.
  eexists [ANew 0; ANew 1; AWeak 0 0; AWeak 1 1; AOverwrite 0 1; AReset 0], _. split; [vm_compute; reflexivity|].
  split; [exists 0; reflexivity|]. split; [now left|]. split; reflexivity.
Qed.

Example C37_case : exists l s, history true (empty_store 3 2) l /\ perform_all true (empty_store 3 2) l = Ok s /\
  destroyed s = [0] /\ held s 1 /\ is_active s 0 = false /\ is_active s 1 = true.
Proof.
  exists [ANew 0; AWeak 0 0; ACopy 1 0; AReset 0; ALock 2 0; AWeak 1 0; AReset 1; ASwap 2 0; AReset 0]. eexists. split; [|split; [vm_compute; reflexivity|]].
  - repeat (first [apply hist_nil | apply hist_cons; [cbn; repeat split; try lia; auto|intros s' E; vm_compute in E; apply Ok_inj in E; subst s']]).
  - repeat split; try reflexivity. exists 2. reflexivity.
Qed.
Example C37_case_threads : exists l s, schedule_ok (first_state 1) l /\ run_schedule (first_state 1) l = Ok s /\ deletions s = 1.
Proof.
  exists [(0, SCopy); (0, SGive 1); (1, SCheck); (0, SDrop); (1, SGo); (1, SDrop); (1, SDrop); (1, SGo); (1, SGo)]. eexists. split; [|split; [vm_compute; reflexivity|reflexivity]].
  repeat (first [apply sched_nil | apply sched_cons; [first [exact I|eexists; split; [reflexivity|cbn; lia]]|intros s' E; vm_compute in E; apply Ok_inj in E; subst s']]).
Qed.

Print Assumptions C37_lifetimes_partial.
Print Assumptions C37_stays_destroyed.
Print Assumptions C37_last_handle_destroys.
Print Assumptions C37_threads_partial.
Print Assumptions C37_lock_race_refuted.
Print Assumptions C37_copied_object_refuted.
Print Assumptions C37_assigned_object_refuted.

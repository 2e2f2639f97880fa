(** Change tracking: edits mark containers dirty (C15) and cached hashes stay right (C13). *)
From Coq Require Import List NArith ZArith Bool PeanoNat Lia String Relations.
From Verif.Model Require Import Base SMap Containers Heap.
From Verif.Spec Require Import Heap.
From Verif.Proof Require Import Tac SMap Heap HeapOps.
Import ListNotations.

(** ** C15.  Full statement: the same without [sound_call] (any call, in any history).  It is false: see the refutations. *)
Theorem C15_edit_marks_containers_dirty_partial :
  forall hl hk h o fuel h' x y,
    history hl hk h -> sound_call h o -> edited o = Some x -> heap_step hl hk fuel h o = Ok h' ->
    (exists z, ncont (h' z) <> ncont (h z)) ->
    live_above h x y ->
    ndirty (h' y) = true.
Proof.
  intros hl hk h o fuel h' x y Hh Hs Hx H (z & Hz) Hl. destruct (history_inv hl hk h Hh) as (G & _).
  destruct (step_edit hl hk fuel h o h' x G Hs Hx H) as [->|(hm & co & Ha & He & Hn)]; [contradiction|].
  eapply edit_dirty; eassumption.
Qed.

(** The notification never runs forever. *)
Theorem C15_notification_terminates :
  forall hl hk h o x, history hl hk h -> sound_call h o -> edited o = Some x ->
    exists enough, forall fuel, (enough <= fuel)%nat -> heap_step hl hk fuel h o <> NoFuel.
Proof.
  intros hl hk h o x Hh Hs Hx. destruct (history_inv hl hk h Hh) as (G & _).
  destruct (step_shape hl hk h o x G Hs Hx) as [(r & Hi & E)|(hm & co & Ha & He & E)].
  - exists O. intros fuel _. rewrite E. destruct Hi as [->|(e & [->| ->])]; discriminate.
  - pose proof (edit_links _ _ _ _ G He) as [_ _ Gu _].
    destruct (on_changed_ends hm x (Gu x)) as (F & HF). exists F. intros fuel Hf. rewrite E.
    destruct (HF fuel hm Hf) as (h2 & E2); [apply shape_refl|]. rewrite E2. discriminate.
Qed.

(** *** A concrete history: the tree [<< /K [true] >>], hashed, then the boolean is changed. *)
Definition cell (c : content) (i : bool) : node := {| ncont := c; ninit := i; ndirty := false; ncache := 0; nobs := [] |}.
Definition fresh_heap (i : bool) : heap := fun x =>
  match x with
  | 0%nat => cell (CDict []) i
  | 1%nat => cell (CArr []) i
  | 2%nat => cell (CLeaf (LBool true)) i
  | 3%nat => cell (CLeaf (LNum 7)) i
  | 4%nat => cell (CLeaf (LStr (str "s") false)) i
  | 5%nat => cell (CArr []) i
  | _ => cell (CLeaf LNull) i
  end.
Definition hl0 (l : leaf) : N :=
  match l with LNull => 0 | LBool true => 1 | LBool false => 2 | LNum z => 3 + Z.to_N z | LName _ => 5 | LStr _ _ => 6 | LRef a b => N.lxor a b end%N.
Definition hk0 (k : bytes) : N := 64%N.
Definition after (h : heap) (os : list heap_op) : heap :=
  fold_left (fun h o => match heap_step hl0 hk0 9 h o with Ok h' => h' | _ => h end) os h.
Definition all_ok (h : heap) (os : list heap_op) : bool :=
  snd (fold_left (fun '(h, b) o => match heap_step hl0 hk0 9 h o with Ok h' => (h', b) | _ => (h, false) end) os (h, true)).

Lemma no_child_audible : forall h x, (forall p, ~ In x (children (ncont (h p)))) -> audible h x.
Proof.
  intros h x Hx y p Ha Hin. exfalso. assert (y = x).
  { clear Hin. induction Ha as [|y q Ha IH Hq]; [reflexivity|]. subst y. exfalso. exact (Hx q Hq). }
  subst y. exact (Hx p Hin).
Qed.
Lemma all_init_audible : forall h x, (forall p y, In y (children (ncont (h p))) -> ninit (h y) = true) -> audible h x.
Proof. intros h x H y p _ Hin. eapply H, Hin. Qed.
Lemma not_told : forall h x c, nobs (h x) = [] -> x <> c -> ~ told h x c.
Proof. intros h x c Hn Hne Ht. inversion Ht as [|? ? Hin]; [congruence|]. rewrite Hn in Hin. contradiction. Qed.
Lemma created_fresh : forall i, created (fresh_heap i).
Proof.
  intros i x. do 6 (destruct x as [|x]; [cbn; split; [reflexivity|]; split; [reflexivity|]; intros o []|]).
  cbn. split; [reflexivity|]. split; [reflexivity|]. intros o [].
Qed.

Definition build : list heap_op := [OArrAppend 1 2; ODictInsert 0 (str "K") 1 false; OSetInit 0 true; OHash 0].

Lemma build_history : history hl0 hk0 (after (fresh_heap false) build).
Proof.
  assert (H1 : history hl0 hk0 (after (fresh_heap false) [OArrAppend 1 2])).
  { eapply (hist_call _ _ (fresh_heap false) (OArrAppend 1 2) 9).
    - constructor. apply created_fresh.
    - split.
      + apply no_child_audible. intros p. do 6 (destruct p as [|p]; [intros []|]). intros [].
      + split; [apply not_told; [reflexivity|lia]|]. right. intros [].
    - reflexivity. }
  assert (H2 : history hl0 hk0 (after (fresh_heap false) [OArrAppend 1 2; ODictInsert 0 (str "K") 1 false])).
  { eapply (hist_call _ _ _ (ODictInsert 0 (str "K") 1 false) 9); [exact H1| |reflexivity].
    split.
    - apply no_child_audible. intros p. do 6 (destruct p as [|p]; [vm_compute; intuition lia|]). intros [].
    - split; [apply not_told; [reflexivity|lia]|]. right. intros []. }
  assert (H3 : history hl0 hk0 (after (fresh_heap false) [OArrAppend 1 2; ODictInsert 0 (str "K") 1 false; OSetInit 0 true])).
  { eapply (hist_call _ _ _ (OSetInit 0 true) 9); [exact H2|exact I|reflexivity]. }
  eapply (hist_call _ _ _ (OHash 0) 9); [exact H3|exact I|reflexivity].
Qed.

Example C15_case :
  exists h h', history hl0 hk0 h /\ sound_call h (OSetLeaf 2 (LBool false)) /\
    heap_step hl0 hk0 9 h (OSetLeaf 2 (LBool false)) = Ok h' /\ ncont (h' 2%nat) <> ncont (h 2%nat) /\
    live_above h 2 0 /\ ndirty (h 0%nat) = false /\ ndirty (h' 0%nat) = true /\ ndirty (h' 1%nat) = true /\ ndirty (h' 5%nat) = false.
Proof.
  exists (after (fresh_heap false) build). eexists. split; [apply build_history|]. split.
  { split; [|vm_compute; exact I]. apply all_init_audible. intros p y.
    do 6 (destruct p as [|p]; [vm_compute; intuition (subst; reflexivity)|]). intros []. }
  split; [reflexivity|]. split; [vm_compute; discriminate|]. split; [|vm_compute; auto].
  apply (live_up _ _ 1%nat); [apply (live_up _ _ 2%nat); [constructor|..]|..]; vm_compute; auto.
Qed.

(** *** Refutations.  In every one of them the edited object is inside an initialised tree and every call is of the public API,
    but the container is not marked. *)
Theorem C15_number_refuted :
  (* [<< /K [7] >>]: setting the number, whatever the new value, marks nothing *)
  forall z h, h = after (fresh_heap false) [OArrAppend 1 3; ODictInsert 0 (str "K") 1 false; OSetInit 0 true] ->
    exists h', heap_step hl0 hk0 9 h (OSetNumber 3 z) = Ok h' /\ ncont (h' 3%nat) = CLeaf (LNum z) /\ live_above h 3 0 /\
      ndirty (h' 0%nat) = false /\ ndirty (h' 1%nat) = false /\ ndirty (h' 3%nat) = false.
Proof.
  intros z h ->. eexists. split; [reflexivity|]. split; [reflexivity|]. split; [|vm_compute; auto].
  apply (live_up _ _ 1%nat); [apply (live_up _ _ 3%nat); [constructor|..]|..]; vm_compute; auto.
Qed.

(** more: no number edit in any heap marks anything *)
Theorem C15_number_never_marks :
  forall hl hk fuel h x z h', heap_step hl hk fuel h (OSetNumber x z) = Ok h' -> forall y, ndirty (h' y) = ndirty (h y).
Proof.
  intros hl hk fuel h x z h' H y. injection H as <-. unfold set_number, upd_node.
  destruct (Nat.eqb_spec y x) as [->|]; reflexivity.
Qed.

Theorem C15_array_clear_refuted :
  exists h h', h = after (fresh_heap false) build /\ heap_step hl0 hk0 9 h (OArrClear 1) = Ok h' /\
    ncont (h 1%nat) = CArr [2%nat] /\ ncont (h' 1%nat) = CArr [] /\ live_above h 1 0 /\
    ndirty (h' 0%nat) = false /\ ndirty (h' 1%nat) = false.
Proof.
  eexists _, _. split; [reflexivity|]. split; [reflexivity|]. split; [reflexivity|]. split; [reflexivity|].
  split; [|vm_compute; auto]. apply (live_up _ _ 1%nat); [constructor|..]; vm_compute; auto.
Qed.

Theorem C15_unread_string_refuted :
  exists h h', h = after (fresh_heap false) [OArrAppend 1 4; OSetInit 1 true] /\
    heap_step hl0 hk0 9 h (OSetString 4 (str "t")) = Ok h' /\
    ncont (h 4%nat) = CLeaf (LStr (str "s") false) /\ ncont (h' 4%nat) = CLeaf (LStr (str "t") true) /\ live_above h 4 1 /\
    ndirty (h' 1%nat) = false /\ ndirty (h' 4%nat) = false.
Proof.
  eexists _, _. split; [reflexivity|]. split; [reflexivity|]. split; [reflexivity|]. split; [reflexivity|].
  split; [|vm_compute; auto]. apply (live_up _ _ 4%nat); [constructor|..]; vm_compute; auto.
Qed.

(** merged values are not observed *)
Definition merge_heap : heap := fun x =>
  match x with
  | 0%nat => cell (CDict []) true
  | 1%nat => cell (CDict []) true
  | 2%nat => cell (CLeaf (LBool true)) true
  | _ => cell (CLeaf LNull) true
  end.
Definition undirty (h : heap) : heap := fun x =>
  {| ncont := ncont (h x); ninit := ninit (h x); ndirty := false; ncache := ncache (h x); nobs := nobs (h x) |}.
Theorem C15_merged_value_refuted :
  exists h h', h = undirty (after merge_heap [ODictInsert 1 (str "K") 2 false; ODictMerge 0 1; ODictClear 1]) /\
    heap_step hl0 hk0 9 h (OSetLeaf 2 (LBool false)) = Ok h' /\
    ncont (h 0%nat) = CDict [(str "K", 2%nat)] /\ ncont (h' 2%nat) <> ncont (h 2%nat) /\ live_above h 2 0 /\ ndirty (h' 0%nat) = false.
Proof.
  eexists _, _. split; [reflexivity|]. split; [reflexivity|]. split; [reflexivity|]. split; [vm_compute; discriminate|].
  split; [|vm_compute; auto]. apply (live_up _ _ 2%nat); [constructor|..]; vm_compute; auto.
Qed.

(** An object made by the caller stays uninitialised (the public interface has no SetInitialized), so edits below it are lost. *)
Theorem C15_user_object_refuted :
  exists h h', h = after (fun x => match x with 0%nat => cell (CDict []) true | n => fresh_heap false n end)
                     [OArrAppend 1 2] /\
    all_ok h [ODictInsert 0 (str "K") 1 false] = true /\
    (let h1 := undirty (after h [ODictInsert 0 (str "K") 1 false]) in
     heap_step hl0 hk0 9 h1 (OSetLeaf 2 (LBool false)) = Ok h' /\ above h1 2 0 /\ ninit (h1 0%nat) = true /\
     ncont (h' 2%nat) <> ncont (h1 2%nat)) /\ ndirty (h' 0%nat) = false.
Proof.
  eexists _, _. split; [reflexivity|]. split; [reflexivity|]. split; [|shelve]. cbv zeta. split; [reflexivity|].
  split; [|split; [reflexivity|vm_compute; discriminate]].
  apply (above_up _ _ 1%nat); [apply (above_up _ _ 2%nat); [constructor|]|]; vm_compute; auto.
  Unshelve. vm_compute. reflexivity.
Qed.

(** Replacing an element leaves the old one observed: array 5 in array 1 is replaced, then array 1 is put in array 5.  The
    notification then runs for ever (the program overflows its stack). *)
Definition loop_ops : list heap_op := [OArrAppend 1 5; OArrSet 1 0 2].
Lemma loop_forever : forall h, ninit (h 1%nat) = true -> ninit (h 5%nat) = true ->
  nobs (h 1%nat) = [5%nat] -> nobs (h 5%nat) = [1%nat] -> forall fuel, on_changed fuel h 5 = NoFuel /\ on_changed fuel h 1 = NoFuel.
Proof.
  intros h H1 H5 O1 O5 fuel. revert h H1 H5 O1 O5.
  induction fuel as [|fuel IH]; intros h H1 H5 O1 O5; [split; reflexivity|].
  cbn [on_changed]. rewrite H1, H5, O1, O5. cbn [fold_left rbind]. split.
  - destruct (IH (upd_node h 5 (set_dirty (h 5%nat)))) as (_ & E); [..|rewrite E; reflexivity]; unfold upd_node; cbn; assumption.
  - destruct (IH (upd_node h 1 (set_dirty (h 1%nat)))) as (E & _); [..|rewrite E; reflexivity]; unfold upd_node; cbn; assumption.
Qed.
Theorem C15_termination_refuted :
  all_ok (fresh_heap true) loop_ops = true /\
  forall fuel, heap_step hl0 hk0 fuel (after (fresh_heap true) loop_ops) (OArrAppend 5 1) = NoFuel.
Proof.
  split; [reflexivity|]. intros fuel. cbn [heap_step].
  unfold array_append. change (ncont (after (fresh_heap true) loop_ops 5%nat)) with (CArr []). cbv beta iota.
  apply loop_forever; reflexivity.
Qed.

(** ** C13, second half: a hash query returns what a fresh computation would.  Full statement: for histories of any calls. *)
Theorem C13_cached_hash_is_fresh_partial :
  forall hl hk h fuel x h' v, history hl hk h -> hash hl hk fuel h x = Ok (h', v) -> hash_of hl hk h x v.
Proof.
  intros hl hk h fuel x h' v Hh H. destruct (history_inv hl hk h Hh) as (_ & Hc).
  apply (hash_spec hl hk fuel h x h' v Hc H).
Qed.
(** ... and there is only one such value, and the query ends. *)
Theorem C13_fresh_hash_unique :
  forall hl hk h x v w, hash_of hl hk h x v -> hash_of hl hk h x w -> v = w.
Proof. exact hash_of_unique. Qed.
Theorem C13_hash_terminates :
  forall hl hk h x, history hl hk h -> exists enough, forall fuel, (enough <= fuel)%nat ->
    exists h' v, hash hl hk fuel h x = Ok (h', v).
Proof.
  intros hl hk h x Hh. destruct (history_inv hl hk h Hh) as ([_ _ _ G] & _).
  destruct (hash_ends hl hk h x (G x)) as (F & HF). exists F. intros fuel Hf.
  destruct (HF fuel h Hf (similar_refl h)) as ([h' v] & E). exists h', v. exact E.
Qed.

Example C13_cache_case :
  (* hash, edit below, hash again *)
  let h := after (fresh_heap false) (build ++ [OSetLeaf 2 (LBool false)]) in
  history hl0 hk0 h /\ ncache (after (fresh_heap false) build 0%nat) = 65%N /\
  exists h', hash hl0 hk0 9 h 0 = Ok (h', 66%N).
Proof.
  cbv zeta. split; [|split; [reflexivity|eexists; reflexivity]].
  eapply (hist_call _ _ _ (OSetLeaf 2 (LBool false)) 9); [apply build_history| |reflexivity].
  split; [|vm_compute; exact I]. apply all_init_audible. intros p y.
  do 6 (destruct p as [|p]; [vm_compute; intuition (subst; reflexivity)|]). intros [].
Qed.

(** stale after a number edit, and after clearing an array *)
Theorem C13_number_stale_refuted :
  let h := after (fresh_heap false) [OArrAppend 1 3; OSetInit 1 true; OHash 1; OSetNumber 3 9] in
  exists h' v, hash hl0 hk0 9 h 1 = Ok (h', v) /\ ~ hash_of hl0 hk0 h 1 v.
Proof.
  cbv zeta. eexists _, _. split; [reflexivity|]. intros H.
  assert (H' : hash_of hl0 hk0 (after (fresh_heap false) [OArrAppend 1 3; OSetInit 1 true; OHash 1; OSetNumber 3 9]) 1 12%N).
  { exists 3%nat. reflexivity. }
  pose proof (hash_of_unique _ _ _ _ _ _ H H') as E. vm_compute in E. discriminate.
Qed.
Theorem C13_array_clear_stale_refuted :
  let h := after (fresh_heap false) [OArrAppend 1 2; OSetInit 1 true; OHash 1; OArrClear 1] in
  exists h' v, hash hl0 hk0 9 h 1 = Ok (h', v) /\ ~ hash_of hl0 hk0 h 1 v.
Proof.
  cbv zeta. eexists _, _. split; [reflexivity|]. intros H.
  assert (H' : hash_of hl0 hk0 (after (fresh_heap false) [OArrAppend 1 2; OSetInit 1 true; OHash 1; OArrClear 1]) 1 0%N).
  { exists 3%nat. reflexivity. }
  pose proof (hash_of_unique _ _ _ _ _ _ H H') as E. vm_compute in E. discriminate.
Qed.
Theorem C13_user_object_stale_refuted :
  let h := after (fresh_heap false) [OArrAppend 1 2; OHash 1; OSetLeaf 2 (LBool false)] in
  exists h' v, hash hl0 hk0 9 h 1 = Ok (h', v) /\ ~ hash_of hl0 hk0 h 1 v.
Proof.
  cbv zeta. eexists _, _. split; [reflexivity|]. intros H.
  assert (H' : hash_of hl0 hk0 (after (fresh_heap false) [OArrAppend 1 2; OHash 1; OSetLeaf 2 (LBool false)]) 1 2%N).
  { exists 3%nat. reflexivity. }
  pose proof (hash_of_unique _ _ _ _ _ _ H H') as E. vm_compute in E. discriminate.
Qed.

Print Assumptions C15_edit_marks_containers_dirty_partial.
Print Assumptions C15_notification_terminates.
Print Assumptions C15_number_refuted.
Print Assumptions C15_number_never_marks.
Print Assumptions C15_array_clear_refuted.
Print Assumptions C15_unread_string_refuted.
Print Assumptions C15_merged_value_refuted.
Print Assumptions C15_user_object_refuted.
Print Assumptions C15_termination_refuted.
Print Assumptions C13_cached_hash_is_fresh_partial.
Print Assumptions C13_fresh_hash_unique.
Print Assumptions C13_hash_terminates.
Print Assumptions C13_number_stale_refuted.
Print Assumptions C13_array_clear_stale_refuted.
Print Assumptions C13_user_object_stale_refuted.

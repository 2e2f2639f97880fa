(** C82: an observer of the file writer is told what the writer does, and only may watch or stop it. *)
From Coq Require Import List NArith ZArith Bool Lia String Permutation PeanoNat.
From Verif.Model Require Import Base Numbers SMap Object Xref StartXref Header FileWrite Observers.
From Verif.Spec Require Import Strings FileWrite Observers.
From Verif.Proof Require Import Tac FileWrite Observers.
Import ListNotations.
Local Open Scope N_scope.

(** Every observer whose last call subscribed it and that was not released is told, in order: that the save begins, for every object in
    use that its offset and then the object itself are about to be, and have been, written (with the offset at which its text begins in
    the file), that the output is flushed, and the end.  The file is the one that is written without observers.  Partial: the program
    unsubscribes observers before it releases them, or no observer gets the address of an earlier one. *)
Theorem C82_told_partial : forall order rehash react calls w v l trailer file,
  perform_all start calls = Some w -> tidy calls \/ fresh_addresses calls ->
  (forall x, Permutation (order x) x) -> (forall i h ev, react i h ev = AProceed) ->
  write_table_file v l trailer = Ok file ->
  exists out h objects size, save order rehash react v l trailer w = (Done, out, w, h) /\ out_bytes out = file /\
    out_flushed out = N.of_nat (List.length file) /\
    told file (N.of_nat (List.length (write_header v))) (map fst l) objects size /\
    (forall i, is_subscribed calls i -> ~ is_released calls i ->
       heard i h = ((EInitializing, 0) :: objects ++
         [(EBeforeFlush, N.of_nat (List.length file)); (EAfterFlush, N.of_nat (List.length file)); (EFinalizing, N.of_nat (List.length file))])%list) /\
    (forall i, ~ is_subscribed calls i \/ is_released calls i -> heard i h = []).
Proof.
  intros order rehash react calls w v l trailer file Hw Ht Ho Hr Hf.
  assert (I := inv_all _ _ Hw). assert (Hn : NoDup (table w)) by (apply (NoDup_map_inv (address_of w)); exact (i_keys _ _ I)).
  destruct (save_steps_shape v l trailer file Hf) as (l1 & tab & off & H1 & Hs & Hfile). cbv zeta in Hs, Hfile.
  set (hdr := write_header v) in *. set (pos := N.of_nat (List.length hdr)) in *.
  set (A := (([Tell EInitializing; Put hdr] ++ objects_steps pos l1) ++ [Put [10]; Put tab; Put off])%list) in *.
  assert (FA : fine A = true) by (unfold A; rewrite !fine_app; rewrite objects_fine; reflexivity).
  assert (TA : text_of A = file).
  { unfold A. rewrite !text_app by (rewrite ?fine_app, ?objects_fine; reflexivity). rewrite objects_text. cbn [text_of app]. rewrite Hfile, !app_nil_r, <- !app_assoc. reflexivity. }
  destruct (run_quiet order rehash react w Ho Hn (save_steps v l trailer) {| out_bytes := []; out_flushed := 0 |} []) as (out & h & E1 & E2 & E3).
  { rewrite Hs, fine_app, FA. reflexivity. }
  { intros ev _ i h. apply Hr. }
  cbn [out_bytes List.length app] in E2, E3. change (N.of_nat 0) with 0 in E3.
  assert (T : text_of (save_steps v l trailer) = file) by (rewrite Hs, text_app, TA by exact FA; cbn [text_of]; apply app_nil_r).
  assert (K : calls_of 0 (save_steps v l trailer) = ((EInitializing, 0) :: calls_of pos (objects_steps pos l1) ++
         [(EBeforeFlush, N.of_nat (List.length file)); (EAfterFlush, N.of_nat (List.length file)); (EFinalizing, N.of_nat (List.length file))])%list).
  { rewrite Hs, calls_app, TA by exact FA. unfold A. rewrite !calls_app by (rewrite ?fine_app, ?objects_fine; reflexivity).
    rewrite N.add_0_l. cbn [calls_of text_of app]. rewrite N.add_0_l, !app_nil_r. reflexivity. }
  exists out, h, (calls_of pos (objects_steps pos l1)), (pos + N.of_nat (List.length (fst (write_objects None pos l1)))).
  split; [exact E1|]. split; [rewrite E2; exact T|]. split.
  { (* the last flush saw the whole file *)
    unfold save in E1. rewrite Hs in E1. clear - E1 FA TA Hr. revert E1. generalize ([] : log) at 1. replace file with ((out_bytes {| out_bytes := []; out_flushed := 0 |}) ++ text_of A)%list by exact TA. clear TA.
    generalize {| out_bytes := []; out_flushed := 0 |} as out0. induction A as [|st A IH]; intros out0 h0 E1.
    - cbn [app run_steps text_of] in *. rewrite notify_quiet in E1 by (intros; apply Hr). cbv iota beta in E1. rewrite !notify_quiet in E1 by (intros; apply Hr). cbv iota beta in E1.
      rewrite app_nil_r. assert (X : out = {| out_bytes := out_bytes out0; out_flushed := N.of_nat (List.length (out_bytes out0)) |}) by congruence. rewrite X. reflexivity.
    - destruct st as [b|ev| |e]; cbn [app run_steps text_of fine] in *; [| | |discriminate].
      + assert (X := IH FA _ _ E1). cbn [out_bytes] in X. rewrite <- app_assoc in X. exact X.
      + rewrite notify_quiet in E1 by (intros; apply Hr). cbv iota beta in E1. exact (IH FA _ _ E1).
      + exact (IH FA _ _ E1). }
  assert (Hm : map fst l1 = map fst l).
  { clear - H1. revert l1 H1. induction l as [|[e o] l IH]; intros l1 H1; cbn [recalculate_lengths] in H1; [apply Ok_inj in H1; subst; reflexivity|].
    apply rbind_ok in H1. destruct H1 as (o' & _ & H1). apply rbind_ok in H1. destruct H1 as (t' & H2 & H1). apply Ok_inj in H1. subst l1. cbn [map fst]. rewrite (IH _ H2). reflexivity. }
  split.
  { rewrite Hfile, <- Hm. apply (objects_told l1 pos hdr). reflexivity. }
  split.
  - intros i Hs1 Hr1. rewrite (E3 i). assert (L : live w i = true); [|rewrite L, K; reflexivity].
    assert (Hin := subscribed_kept _ _ _ Hw Ht Hs1). unfold live. apply andb_true_iff. split.
    + apply existsb_exists. exists i. split; [exact Hin|apply Nat.eqb_refl].
    + apply (i_alive _ _ I). split; [exact (i_range _ _ I _ Hin)|exact Hr1].
  - intros i Hi. rewrite (E3 i). assert (L : live w i = false); [|rewrite L; reflexivity]. unfold live. apply andb_false_iff.
    destruct (existsb (Nat.eqb i) (table w)) eqn:X; [right|left; reflexivity]. apply existsb_exists in X. destruct X as (j & X1 & X2). apply Nat.eqb_eq in X2. subst j.
    destruct Hi as [Hi|Hi]; [destruct (Hi (i_sub _ _ I _ X1))|]. destruct (is_alive w i) eqn:Y; [|reflexivity]. apply (i_alive _ _ I) in Y. tauto.
Qed.

(** Whoever is not subscribed, and whoever was released, is told nothing, whatever the program did before; the callbacks that are called
    only answer. *)
Theorem C82_not_told : forall order rehash react calls w v l trailer r out w' h i,
  perform_all start calls = Some w -> (forall i h ev, react i h ev = AProceed \/ exists rv, react i h ev = ARefuse rv) ->
  save order rehash react v l trailer w = (r, out, w', h) ->
  ~ is_subscribed calls i \/ is_released calls i -> heard i h = [].
Proof.
  intros order rehash react calls w v l trailer r out w' h i Hw Hp H Hi. assert (I := inv_all _ _ Hw).
  apply run_polite in H; [|exact Hp]. destruct H as (_ & new & -> & F). rewrite app_nil_r. apply heard_none. apply (Forall_impl _ (fun c X => X)).
  eapply Forall_impl; [|exact F]. intros c X E. cbn beta in X. rewrite E in X. unfold live in X. apply andb_true_iff in X. destruct X as (X & Y).
  apply existsb_exists in X. destruct X as (j & X1 & X2). apply Nat.eqb_eq in X2. subst j. destruct Hi as [Hi|Hi]; [exact (Hi (i_sub _ _ I _ X1))|].
  apply (i_alive _ _ I) in Y. tauto.
Qed.

(** An observer that is made where an earlier one was, which was released but is still subscribed, is not told anything although it is
    subscribed: the writer compares addresses. *)
Theorem C82_reused_address_refuted : forall calls w k, perform_all start calls = Some w -> fresh_addresses calls -> is_subscribed calls k -> is_released calls k ->
  let i := List.length (addresses calls) in
  let calls' := (calls ++ [OMake (nth k (addresses calls) 0); OSubscribe i])%list in
  exists w', perform_all start calls' = Some w' /\ is_subscribed calls' i /\ ~ is_released calls' i /\
  forall order rehash react v l trailer r out w'' h, (forall i h ev, react i h ev = AProceed \/ exists rv, react i h ev = ARefuse rv) ->
    save order rehash react v l trailer w' = (r, out, w'', h) -> heard i h = [].
Proof.
  intros calls w k Hw Hf Hs Hr i calls'. assert (I := inv_all _ _ Hw). assert (Hk := subscribed_kept _ _ _ Hw (or_intror Hf) Hs). assert (Lk := i_range _ _ I _ Hk).
  assert (Ak := address_nth _ _ _ I Lk). assert (Li : List.length (made w) = i) by (unfold i; rewrite <- (i_addr _ _ I), map_length; reflexivity).
  assert (Dk : is_alive w k = false) by (destruct (is_alive w k) eqn:X; [apply (i_alive _ _ I) in X; tauto|reflexivity]).
  set (a := nth k (addresses calls) 0) in *.
  assert (E : existsb (fun ob => alive ob && (address ob =? a)) (made w) = false).
  { destruct (existsb _ (made w)) eqn:X; [|reflexivity]. exfalso. apply existsb_exists in X. destruct X as (ob & X1 & X2). apply andb_true_iff in X2. destruct X2 as (X2 & X3). apply N.eqb_eq in X3.
    destruct (In_nth _ _ no_observer X1) as (j & J1 & J2). assert (j = k); [|subst j; unfold is_alive in Dk; congruence].
    apply (proj1 (NoDup_nth _ 0) Hf); [lia|lia|]. rewrite <- !(address_nth _ _ _ I) by assumption. unfold address_of at 1. rewrite J2. congruence. }
  set (w1 := {| made := made w ++ [{| address := a; alive := true |}]; table := table w |}).
  assert (A1 : is_alive w1 i = true) by (unfold is_alive, w1; cbn [made]; rewrite app_nth2 by lia; rewrite Li, Nat.sub_diag; reflexivity).
  assert (B1 : address_of w1 i = a) by (unfold address_of, w1; cbn [made]; rewrite app_nth2 by lia; rewrite Li, Nat.sub_diag; reflexivity).
  assert (B2 : address_of w1 k = a) by (rewrite <- Ak; unfold address_of, w1; cbn [made]; rewrite app_nth1 by lia; reflexivity).
  assert (P : perform_all start calls' = Some (subscribe w1 i)).
  { unfold calls'. rewrite perform_app, Hw. cbn [perform_all]. cbn [perform]. rewrite E. fold w1. rewrite A1. reflexivity. }
  assert (S : subscribe w1 i = w1).
  { unfold subscribe. destruct (key_of w1 i) eqn:X; [reflexivity|]. exfalso. apply (key_none _ _ k X); [exact Hk|congruence]. }
  exists w1. split; [rewrite P, S; reflexivity|]. split; [unfold is_subscribed, calls'; rewrite subscribed_app; cbn [subscribed]; rewrite Nat.eqb_refl; reflexivity|].
  split.
  { unfold calls', is_released. rewrite in_app_iff. cbn [In]. intros [X|[X|[X|[]]]]; try discriminate. apply (i_rel _ _ I) in X. lia. }
  intros order rehash react v l trailer r out w'' h Hp H. apply run_polite in H; [|exact Hp]. destruct H as (_ & new & -> & F). rewrite app_nil_r. apply heard_none.
  eapply Forall_impl; [|exact F]. intros c X Ec. cbn beta in X. rewrite Ec in X. unfold live in X. apply andb_true_iff in X. destruct X as (X & _).
  apply existsb_exists in X. destruct X as (j & X1 & X2). apply Nat.eqb_eq in X2. subst j. cbn [table w1] in X1. apply (i_range _ _ I) in X1. lia.
Qed.

(** Whatever observers do, short of undefined behaviour, they do not change the file: a save that is not stopped writes and flushes the
    file that is written without observers, a save that is stopped has written the beginning of it. *)
Theorem C82_same_file : forall order rehash react v l trailer w r out w' h file,
  save order rehash react v l trailer w = (r, out, w', h) -> write_table_file v l trailer = Ok file ->
  (exists rest, file = (out_bytes out ++ rest)%list) /\ (r = Done -> out_bytes out = file) /\ (forall e, r <> Failed e).
Proof.
  intros order rehash react v l trailer w r out w' h file H Hf. destruct (save_steps_shape v l trailer file Hf) as (l1 & tab & off & H1 & Hs & Hfile). cbv zeta in Hs, Hfile.
  set (hdr := write_header v) in *. set (pos := N.of_nat (List.length hdr)) in *.
  assert (FA : fine (save_steps v l trailer) = true) by (rewrite Hs, !fine_app, objects_fine; reflexivity).
  assert (TA : text_of (save_steps v l trailer) = file).
  { rewrite Hs. rewrite !text_app by (rewrite ?fine_app, ?objects_fine; reflexivity). rewrite objects_text. cbn [text_of app]. rewrite Hfile, !app_nil_r, <- !app_assoc. reflexivity. }
  apply run_result in H. destruct H as (pre & post & new & E1 & E2 & E3 & _ & _ & _ & E7). cbn [out_bytes app] in E3.
  assert (E : file = (out_bytes out ++ text_of post)%list) by (rewrite <- TA, E1, text_app, E3 by exact E2; reflexivity).
  split; [eauto|]. split.
  - intros ->. subst post. cbn [text_of] in E. rewrite app_nil_r in E. congruence.
  - intros e ->. destruct E7 as (p & ->). rewrite E1, fine_app in FA. cbn [fine] in FA. rewrite andb_false_r in FA. discriminate.
Qed.

(** A save that ends with UserCancelled: the last call is the one that was refused, and nobody is called after it.  The end of the save
    is told only in a save that is not stopped before, and nothing is flushed by the writer before the flush is announced. *)
Theorem C82_cancelled : forall order rehash react v l trailer w rv out w' h file,
  save order rehash react v l trailer w = (Cancelled rv, out, w', h) -> write_table_file v l trailer = Ok file ->
  exists i ev h0, h = (i, ev, N.of_nat (List.length (out_bytes out))) :: h0 /\ react i h0 ev = ARefuse rv /\
    (ev <> EFinalizing -> forall c, In c h -> snd (fst c) <> EFinalizing) /\
    (ev <> EAfterFlush -> ev <> EFinalizing -> out_flushed out = 0 /\ forall c, In c h -> snd (fst c) <> EAfterFlush) /\
    (ev = EBeforeFlush \/ ev = EAfterFlush \/ ev = EFinalizing -> out_bytes out = file) /\
    (ev = EInitializing -> out_bytes out = []).
Proof.
  intros order rehash react v l trailer w rv out w' h file H Hf. destruct (save_steps_shape v l trailer file Hf) as (l1 & tab & off & H1 & Hs & Hfile). cbv zeta in Hs, Hfile.
  set (hdr := write_header v) in *. set (pos := N.of_nat (List.length hdr)) in *.
  set (A := (([Tell EInitializing; Put hdr] ++ objects_steps pos l1) ++ [Put [10]; Put tab; Put off])%list) in *.
  assert (FA : fine A = true) by (unfold A; rewrite !fine_app, objects_fine; reflexivity).
  assert (TA : text_of A = file).
  { unfold A. rewrite !text_app by (rewrite ?fine_app, ?objects_fine; reflexivity). rewrite objects_text. cbn [text_of app]. rewrite Hfile, !app_nil_r, <- !app_assoc. reflexivity. }
  assert (EA : forall st, In st A -> st <> FlushOut /\ st <> Tell EBeforeFlush /\ st <> Tell EAfterFlush /\ st <> Tell EFinalizing).
  { intros st X. unfold A in X. rewrite !in_app_iff in X. destruct X as [[X|X]|X].
    - cbn [In] in X. destruct X as [<-|[<-|[]]]; repeat split; discriminate.
    - apply objects_events in X. tauto.
    - cbn [In] in X. destruct X as [<-|[<-|[<-|[]]]]; repeat split; discriminate. }
  apply run_result in H. destruct H as (pre & post & new & E1 & E2 & E3 & E4 & E5 & E6 & i & ev & h0 & post' & E7 & E8 & E9). cbn [out_bytes out_flushed app] in E3, E4.
  exists i, ev, h0. rewrite app_nil_r in E5. subst new. split; [exact E8|]. split; [exact E9|].
  assert (Hcall : forall c, In c h -> In (Tell (snd (fst c))) (pre ++ [Tell ev])).
  { intros c X. rewrite Forall_forall in E6. apply E6 in X. rewrite E7 in X. exact X. }
  rewrite Hs in E1. rewrite E7 in E1.
  assert (Hsplit : (exists m, A = (pre ++ Tell ev :: m)%list) \/
    (pre = A /\ ev = EBeforeFlush) \/ (pre = (A ++ [Tell EBeforeFlush; FlushOut])%list /\ ev = EAfterFlush) \/
    (pre = (A ++ [Tell EBeforeFlush; FlushOut; Tell EAfterFlush])%list /\ ev = EFinalizing)).
  { clear - E1. clearbody A. revert A E1. induction pre as [|p pre IH]; intros A E1.
    - destruct A as [|a A]; [right; left; split; [reflexivity|]; cbn [app] in E1; congruence|]. left. cbn [app] in E1. exists A. cbn [app]. congruence.
    - destruct A as [|a A].
      + cbn [app] in E1. right. right. destruct pre as [|p2 pre]; [cbn [app] in E1; congruence|]. cbn [app] in E1. destruct pre as [|p3 pre]; [left; split; cbn [app] in *; congruence|].
        destruct pre as [|p4 pre]; [right; split; cbn [app] in *; congruence|]. exfalso. cbn [app] in E1. assert (X : List.length [Tell EBeforeFlush; FlushOut; Tell EAfterFlush; Tell EFinalizing] = List.length (p :: p2 :: p3 :: p4 :: pre ++ Tell ev :: post')) by congruence.
        cbn [List.length] in X. rewrite app_length in X. cbn [List.length] in X. lia.
      + cbn [app] in E1. assert (a = p) by congruence. subst a. assert (E2 : (A ++ [Tell EBeforeFlush; FlushOut; Tell EAfterFlush; Tell EFinalizing])%list = (pre ++ Tell ev :: post')%list) by congruence.
        destruct (IH A E2) as [(m & ->)|[(-> & X)|[(-> & X)|(-> & X)]]]; [left; exists m; reflexivity|right; left; auto|right; right; left; auto|right; right; right; auto]. }
  destruct Hsplit as [(m & HA)|[(-> & ->)|[(-> & ->)|(-> & ->)]]].
  - assert (Hev : In (Tell ev) A) by (rewrite HA; apply in_app_iff; right; left; reflexivity).
    assert (Hpre : forall st, In st (pre ++ [Tell ev]) -> In st A) by (intros st X; rewrite HA; apply in_app_iff in X; apply in_app_iff; destruct X as [X|[X|[]]]; [left; exact X|right; left; exact X]).
    assert (Hne := EA _ Hev). destruct Hne as (_ & Hb & Ha & Hz).
    split; [intros _ c X Y; apply Hcall, Hpre, EA in X; rewrite Y in X; tauto|].
    split; [intros _ _; split; [|intros c X Y; apply Hcall, Hpre, EA in X; rewrite Y in X; tauto]; destruct E4 as [X|X]; [|exact X]; exfalso; assert (Y := EA FlushOut); destruct Y as (Y & _); [apply Hpre, in_app_iff; left; exact X|congruence]|].
    split; [intros [X|[X|X]]; congruence|].
    intros ->. destruct pre as [|p pre]; [exact E3|]. exfalso. rewrite HA in TA. unfold A in HA. cbn [app] in HA.
    assert (HA2 : (Put hdr :: (objects_steps pos l1 ++ [Put [10]; Put tab; Put off]))%list = (pre ++ Tell EInitializing :: m)%list) by congruence.
    assert (X : In (Tell EInitializing) (Put hdr :: (objects_steps pos l1 ++ [Put [10]; Put tab; Put off]))%list) by (rewrite HA2; apply in_app_iff; right; left; reflexivity).
    cbn [In] in X. rewrite in_app_iff in X. destruct X as [X|[X|X]]; [discriminate|apply objects_events in X; tauto|cbn [In] in X; destruct X as [X|[X|[X|[]]]]; discriminate].
  - assert (Hz : forall c, In c h -> snd (fst c) <> EAfterFlush /\ snd (fst c) <> EFinalizing).
    { intros c X. apply Hcall in X. apply in_app_iff in X. destruct X as [X|[X|[]]]; [|split; congruence]. apply EA in X. destruct X as (_ & _ & X & Y). split; congruence. }
    split; [intros _ c X; apply Hz in X; tauto|].
    split; [intros _ _; split; [|intros c X; apply Hz in X; tauto]; destruct E4 as [X|X]; [|exact X]; destruct (EA _ X); congruence|].
    split; [intros _; rewrite E3; exact TA|discriminate].
  - split; [|split; [congruence|split; [intros _; rewrite E3, text_app, TA by exact FA; cbn [text_of]; apply app_nil_r|discriminate]]].
    intros _ c X Y. apply Hcall in X. rewrite Y in X. rewrite !in_app_iff in X. destruct X as [[X|X]|[X|[]]]; [apply EA in X; tauto| |discriminate]. cbn [In] in X. destruct X as [X|[X|[]]]; discriminate.
  - split; [congruence|]. split; [congruence|]. split; [|discriminate]. intros _. rewrite E3, text_app, TA by exact FA. cbn [text_of]. apply app_nil_r.
Qed.

(** A save that is reported as cancelled may be complete: who refuses the last call finds the whole file written and flushed. *)
Theorem C82_late_refusal_refuted : forall order rehash calls w v l trailer file rv i,
  perform_all start calls = Some w -> tidy calls \/ fresh_addresses calls -> is_subscribed calls i -> ~ is_released calls i ->
  (forall x, Permutation (order x) x) -> write_table_file v l trailer = Ok file ->
  exists out h, save order rehash (fun _ _ ev => match ev with EFinalizing => ARefuse rv | _ => AProceed end) v l trailer w = (Cancelled rv, out, w, h) /\
    out_bytes out = file /\ out_flushed out = N.of_nat (List.length file).
Proof.
  intros order rehash calls w v l trailer file rv i Hw Ht Hsub Hrel Ho Hf. set (react := fun (_ : nat) (_ : log) ev => match ev with EFinalizing => ARefuse rv | _ => AProceed end).
  assert (I := inv_all _ _ Hw). destruct (save_steps_shape v l trailer file Hf) as (l1 & tab & off & H1 & Hs & Hfile). cbv zeta in Hs, Hfile.
  set (hdr := write_header v) in *. set (pos := N.of_nat (List.length hdr)) in *.
  set (A := (([Tell EInitializing; Put hdr] ++ objects_steps pos l1) ++ [Put [10]; Put tab; Put off])%list) in *.
  assert (FA : fine A = true) by (unfold A; rewrite !fine_app, objects_fine; reflexivity).
  assert (TA : text_of A = file).
  { unfold A. rewrite !text_app by (rewrite ?fine_app, ?objects_fine; reflexivity). rewrite objects_text. cbn [text_of app]. rewrite Hfile, !app_nil_r, <- !app_assoc. reflexivity. }
  assert (EA : forall st, In st A -> st <> Tell EFinalizing).
  { intros st X. unfold A in X. rewrite !in_app_iff in X. destruct X as [[X|X]|X].
    - cbn [In] in X. destruct X as [<-|[<-|[]]]; repeat split; discriminate.
    - apply objects_events in X. tauto.
    - cbn [In] in X. destruct X as [<-|[<-|[<-|[]]]]; repeat split; discriminate. }
  assert (Hin := subscribed_kept _ _ _ Hw Ht Hsub). assert (L : live w i = true).
  { unfold live. apply andb_true_iff. split; [apply existsb_exists; exists i; split; [exact Hin|apply Nat.eqb_refl]|]. apply (i_alive _ _ I). split; [exact (i_range _ _ I _ Hin)|exact Hrel]. }
  assert (Hlast : forall pos rest h, In i rest -> exists h', notify rehash react pos EFinalizing rest w h = (Cancelled rv, w, h')).
  { intros p rest h X. induction rest as [|j rest IH]; [destruct X|]. cbn [notify]. destruct (existsb (Nat.eqb j) (table w)) eqn:Y1; cbn [negb].
    - destruct (is_alive w j) eqn:Y2; cbn [negb]; [eexists; reflexivity|]. destruct X as [->|X]; [|exact (IH X)]. unfold live in L. rewrite Y2, andb_false_r in L. discriminate.
    - destruct X as [->|X]; [|exact (IH X)]. unfold live in L. rewrite Y1 in L. discriminate. }
  unfold save. rewrite Hs. assert (HA : forall st, In st A -> forall ev, st = Tell ev -> forall i h, react i h ev = AProceed).
  { intros st X ev Y j h. apply EA in X. unfold react. destruct ev; try reflexivity. congruence. }
  clear Hs EA. clearbody A. clear - FA TA HA Hlast Ho Hin. generalize ([] : log) as h0.
  replace file with ((out_bytes {| out_bytes := []; out_flushed := 0 |}) ++ file)%list by reflexivity.
  generalize {| out_bytes := []; out_flushed := 0 |} as out0. revert HA. revert TA. revert FA. revert file. induction A as [|st A IH]; intros file FA TA HA out0 h0.
  - cbn [app run_steps text_of] in *. subst file. rewrite notify_quiet by reflexivity. cbv iota beta. cbn [out_bytes]. rewrite notify_quiet by reflexivity. cbv iota beta.
    destruct (Hlast (N.of_nat (List.length (out_bytes out0))) (order (table w)) (rev (map (fun i0 : nat => (i0, EAfterFlush, N.of_nat (List.length (out_bytes out0)))) (filter (live w) (order (table w)))) ++
        rev (map (fun i0 : nat => (i0, EBeforeFlush, N.of_nat (List.length (out_bytes out0)))) (filter (live w) (order (table w)))) ++ h0)%list) as (h' & E).
    { apply (Permutation_in i (Permutation_sym (Ho (table w)))). exact Hin. }
    rewrite E. eexists. exists h'. split; [reflexivity|]. cbn [out_bytes out_flushed]. rewrite app_nil_r. auto.
  - assert (HA2 : forall st, In st A -> forall ev, st = Tell ev -> forall i h, react i h ev = AProceed) by (intros s X; apply HA; right; exact X).
    destruct st as [b|ev| |e]; cbn [app run_steps text_of fine] in *; [| | |discriminate].
    + subst file. destruct (IH (text_of A) FA eq_refl HA2 {| out_bytes := out_bytes out0 ++ b; out_flushed := out_flushed out0 |} h0) as (out & h & E1 & E2 & E3).
      exists out, h. split; [exact E1|]. cbn [out_bytes] in E2, E3. rewrite <- app_assoc in E2, E3. auto.
    + rewrite notify_quiet by (apply (HA (Tell ev) (or_introl eq_refl) ev eq_refl)). cbv iota beta. apply IH; assumption.
    + destruct (IH file FA TA HA2 {| out_bytes := out_bytes out0; out_flushed := N.of_nat (List.length (out_bytes out0)) |} h0) as (out & h & E1 & E2 & E3). exists out, h. auto.
Qed.

(** A callback that unsubscribes its own observer: the loop goes on from an iterator that was erased. *)
Theorem C82_unsubscribe_inside_refuted : forall order rehash react calls w v l trailer i,
  perform_all start calls = Some w -> tidy calls \/ fresh_addresses calls -> is_subscribed calls i -> ~ is_released calls i ->
  (forall x, Permutation (order x) x) -> (forall j h, react j h EInitializing = AUnsubscribe j) ->
  exists out h, save order rehash react v l trailer w = (Undefined, out, w, h).
Proof.
  intros order rehash react calls w v l trailer i Hw Ht Hsub Hrel Ho Hr. assert (I := inv_all _ _ Hw). assert (Hin := subscribed_kept _ _ _ Hw Ht Hsub).
  assert (Hal : is_alive w i = true) by (apply (i_alive _ _ I); split; [exact (i_range _ _ I _ Hin)|exact Hrel]).
  assert (Hlast : forall pos rest h, In i rest -> exists h', notify rehash react pos EInitializing rest w h = (Undefined, w, h')).
  { intros p rest h X. induction rest as [|j rest IH]; [destruct X|]. cbn [notify]. destruct (existsb (Nat.eqb j) (table w)) eqn:Y1; cbn [negb].
    - destruct (is_alive w j) eqn:Y2; cbn [negb]; [|destruct X as [->|X]; [congruence|exact (IH X)]]. cbv zeta. rewrite Hr, Y2. cbn [negb].
      apply existsb_exists in Y1. destruct Y1 as (y & Y3 & Y4). apply Nat.eqb_eq in Y4. subst y. destruct (key_of w j) as [k|] eqn:K.
      + destruct (key_some _ _ _ K) as (K1 & K2). assert (k = j) by (apply (nodup_key w k j (i_keys _ _ I) K1 Y3); congruence). subst k. rewrite Nat.eqb_refl. eauto.
      + destruct (key_none _ _ _ K Y3 eq_refl).
    - destruct X as [->|X]; [|exact (IH X)]. exfalso. assert (Z : existsb (Nat.eqb i) (table w) = true) by (apply existsb_exists; exists i; split; [exact Hin|apply Nat.eqb_refl]). congruence. }
  unfold save, save_steps. cbv zeta. cbn [app run_steps]. destruct (Hlast (N.of_nat (List.length (out_bytes {| out_bytes := []; out_flushed := 0 |}))) (order (table w)) []) as (h' & E).
  { apply (Permutation_in i (Permutation_sym (Ho (table w)))). exact Hin. }
  rewrite E. eauto.
Qed.

(** A program with two observers: one is subscribed, the other one was and is not any more, and a third one was released.  Each of the
    hypotheses above is met; so is the one about an address that is used again. *)
Definition program : list op := [OMake 4096; OMake 8192; OMake 12288; OSubscribe 0; OSubscribe 1; OSubscribe 2; OUnsubscribe 1; OUnsubscribe 2; ORelease 2].
Example C82_case_program : exists w, perform_all start program = Some w /\ tidy program /\ fresh_addresses program /\ is_subscribed program 0 /\ ~ is_released program 0 /\
  ~ is_subscribed program 1 /\ is_released program 2.
Proof.
  eexists. split; [reflexivity|]. split.
  - intros before i after E. unfold program in E.
    do 9 (destruct before as [|? before]; cbn [app] in E; [first [discriminate|assert (i = 2%nat) by congruence; subst i; cbn; discriminate]|injection E as <- E]).
    destruct before; discriminate.
  - split; [unfold fresh_addresses; cbn; repeat (constructor; [cbn; intuition discriminate|]); constructor|].
    split; [reflexivity|]. split; [cbn; intuition discriminate|]. split; [cbn; discriminate|]. cbn. tauto.
Qed.

Example C82_case_reused : exists w, perform_all start [OMake 4096; OSubscribe 0; ORelease 0] = Some w /\ fresh_addresses [OMake 4096; OSubscribe 0; ORelease 0] /\
  is_subscribed [OMake 4096; OSubscribe 0; ORelease 0] 0 /\ is_released [OMake 4096; OSubscribe 0; ORelease 0] 0.
Proof. eexists. split; [reflexivity|]. split; [repeat constructor; intros []|]. split; [reflexivity|]. cbn. tauto. Qed.

(** a document with one object, a number: it is written, and the observer hears the six calls about it and the four others *)
Definition one_object : list (xentry * obj) := [({| xnum := 1; xgen := 0; xdata := KUsed 0%Z true |}, OInt 7)].

Example C82_case : exists w file out h,
  perform_all start program = Some w /\ write_table_file PDF17 one_object [] = Ok file /\
  save (fun x => x) (fun _ => false) (fun _ _ _ => AProceed) PDF17 one_object [] w = (Done, out, w, h) /\ out_bytes out = file /\ List.length (heard 0 h) = 10%nat /\ heard 1 h = [].
Proof. do 4 eexists. split; [reflexivity|]. split; [vm_compute; reflexivity|]. split; [vm_compute; reflexivity|]. split; [vm_compute; reflexivity|]. split; vm_compute; reflexivity. Qed.

Print Assumptions C82_told_partial.
Print Assumptions C82_not_told.
Print Assumptions C82_reused_address_refuted.
Print Assumptions C82_same_file.
Print Assumptions C82_cancelled.
Print Assumptions C82_late_refusal_refuted.
Print Assumptions C82_unsubscribe_inside_refuted.

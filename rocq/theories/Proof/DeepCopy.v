(** The copy is isomorphic to the source. *)
From Coq Require Import List NArith Bool Lia PeanoNat.
From Verif.Model Require Import Base Buffer Equality Duplicates DeepCopy.
From Verif.Spec Require Import Equality Duplicates DeepCopy.
From Verif.Proof Require Import Tac Equality Duplicates.
Import ListNotations.
Open Scope N_scope.

Lemma value_refs_spec : forall i v, In i (value_refs v) <-> contains_ref i v.
Proof.
  intros i. induction v as [|x|q|q|n|h s|n g|l IH|l IH|l x IH] using value_ind'; cbn [value_refs];
  try (split; [intros []|intros H; inversion H]; fail).
  - split; [intros [<-|[]]; apply (cr_ref (n, g))|]. intros H. inversion H; subst. left. destruct i; reflexivity.
  - rewrite in_flat_map. rewrite Forall_forall in IH. split.
    + intros (x & Hin & H). econstructor; [exact Hin|]. apply IH; assumption.
    + intros H. inversion H; subst. exists x. split; [assumption|]. apply IH; assumption.
  - rewrite in_flat_map. rewrite Forall_forall in IH. split.
    + intros ([k x] & Hin & H). econstructor; [exact Hin|]. apply (IH _ Hin). exact H.
    + intros H. inversion H; subst. exists (k, x). split; [assumption|]. eapply IH; eassumption.
  - rewrite in_flat_map. rewrite Forall_forall in IH. split.
    + intros ([k y] & Hin & H). econstructor; [exact Hin|]. apply (IH _ Hin). exact H.
    + intros H. inversion H; subst. exists (k, x0). split; [assumption|]. eapply IH; eassumption.
Qed.

Lemma lookup_in : forall f i v, lookup_id f i = Some v -> In (i, v) f.
Proof.
  induction f as [|[[n g] w] f IH]; intros i v E; cbn [lookup_id] in E; [discriminate|].
  destruct (same_id (n, g) i) eqn:Ei; [|right; auto]. apply same_id_eq in Ei. subst. injection E as ->. left. reflexivity.
Qed.
Lemma in_lookup : forall f i v, numbers_unique f -> In (i, v) f -> lookup_id f i = Some v.
Proof.
  unfold numbers_unique. induction f as [|[[n g] w] f IH]; intros i v Hd Hin; [destruct Hin|]. cbn [lookup_id map] in *. inversion Hd as [|? ? Hn Hd']; subst.
  destruct Hin as [E|Hin].
  - injection E as <- ->. assert (E : same_id (n, g) (n, g) = true) by (apply same_id_eq; reflexivity). rewrite E. reflexivity.
  - destruct (same_id (n, g) i) eqn:E; [|apply IH; assumption]. apply same_id_eq in E. subst. exfalso. apply Hn. apply in_map_iff. exists (n, g, v). auto.
Qed.
Lemma lookup_none_in : forall f i v, lookup_id f i = None -> ~ In (i, v) f.
Proof.
  induction f as [|[[n g] w] f IH]; intros i v E Hin; [destruct Hin|]. cbn [lookup_id] in E. destruct (same_id (n, g) i) eqn:Ei; [discriminate|].
  destruct Hin as [H|Hin]; [|eapply IH; eassumption]. injection H as <- _. assert (E' : same_id (n, g) (n, g) = true) by (apply same_id_eq; reflexivity). congruence.
Qed.
Lemma assoc_some : forall m i j, assoc m i = Some j -> In (i, j) m.
Proof.
  induction m as [|[a b] m IH]; intros i j E; cbn [assoc] in E; [discriminate|]. destruct (same_id a i) eqn:Ei; [|right; auto].
  apply same_id_eq in Ei. subst. injection E as ->. left; reflexivity.
Qed.
Lemma assoc_none : forall m i, assoc m i = None <-> ~ In i (map fst m).
Proof.
  induction m as [|[a b] m IH]; intros i; cbn [assoc map]; [cbn; tauto|]. destruct (same_id a i) eqn:Ei.
  - apply same_id_eq in Ei. subst. split; [discriminate|]. intros H. exfalso. apply H. left; reflexivity.
  - rewrite IH. cbn [In fst]. split; [|tauto]. intros H [E|E]; [|tauto]. subst. assert (E' : same_id i i = true) by (apply same_id_eq; reflexivity). congruence.
Qed.
Lemma in_assoc : forall m i j, NoDup (map fst m) -> In (i, j) m -> assoc m i = Some j.
Proof.
  induction m as [|[a b] m IH]; intros i j Hd Hin; [destruct Hin|]. cbn [assoc map] in *. inversion Hd as [|? ? Hn Hd']; subst.
  destruct Hin as [E|Hin].
  - injection E as -> ->. assert (E' : same_id i i = true) by (apply same_id_eq; reflexivity). rewrite E'. reflexivity.
  - destruct (same_id a i) eqn:E; [|auto]. apply same_id_eq in E. subst. exfalso. apply Hn. apply in_map_iff. exists (i, j). auto.
Qed.

Section Copy.
Variable alloc : file_objects -> res ident.
Variable src : file_objects.

Lemma copy_object_eq : forall fuel i st, copy_object alloc src (S fuel) i st =
  match assoc (c_map st) i with
  | Some _ => Ok st
  | None =>
      match lookup_id src i with
      | None => Ok st
      | Some v => do new <- alloc (c_dst st);;
          copy_refs alloc src fuel (value_refs v) {| c_map := (i, new) :: c_map st; c_dst := (fst new, snd new, v) :: c_dst st |}
      end
  end.
Proof.
  intros fuel i st. cbn [copy_object]. destruct (assoc (c_map st) i); [reflexivity|]. destruct (lookup_id src i) as [v|]; [|reflexivity].
  destruct (alloc (c_dst st)) as [new|e| |]; try reflexivity. cbn [rbind].
  generalize {| c_map := (i, new) :: c_map st; c_dst := (fst new, snd new, v) :: c_dst st |} as s. generalize (value_refs v) as rs.
  induction rs as [|r rs IH]; intros s; [reflexivity|]. cbn [copy_refs]. destruct (copy_object alloc src fuel r s); try reflexivity. cbn [rbind]. apply IH.
Qed.

(** *** It ends *)
Definition unvisited (st : cstate) : nat :=
  length (filter (fun e => match assoc (c_map st) (fst e) with Some _ => false | None => true end) src).
Lemma filter_le : forall {A} (p q : A -> bool) l, (forall x, q x = true -> p x = true) -> (length (filter q l) <= length (filter p l))%nat.
Proof.
  intros A p q l H. induction l as [|x l IH]; [cbn; lia|]. cbn [filter]. destruct (q x) eqn:E; [rewrite (H _ E); cbn [length]; lia|].
  destruct (p x); cbn [length]; lia.
Qed.
Lemma filter_len : forall {A} (p : A -> bool) l, (length (filter p l) <= length l)%nat.
Proof. intros A p l. induction l as [|x l IH]; [cbn; lia|]. cbn [filter]. destruct (p x); cbn [length]; lia. Qed.
Lemma filter_lt : forall {A} (p q : A -> bool) l y, (forall x, q x = true -> p x = true) -> In y l -> p y = true -> q y = false ->
  (length (filter q l) < length (filter p l))%nat.
Proof.
  intros A p q l y H. induction l as [|x l IH]; intros Hin Hp Hq; [destruct Hin|]. cbn [filter]. destruct Hin as [->|Hin].
  - rewrite Hp, Hq. cbn [length]. pose proof (filter_le p q l H). lia.
  - specialize (IH Hin Hp Hq). destruct (q x) eqn:E; [rewrite (H _ E); cbn [length]; lia|]. destruct (p x); cbn [length]; lia.
Qed.
Lemma unvisited_le : forall st st' ext, c_map st' = ext ++ c_map st -> (unvisited st' <= unvisited st)%nat.
Proof.
  intros st st' ext E. unfold unvisited. apply filter_le. intros x. rewrite E.
  destruct (assoc (ext ++ c_map st) (fst x)) eqn:E1; [discriminate|]. intros _. destruct (assoc (c_map st) (fst x)) eqn:E2; [|reflexivity].
  apply assoc_none in E1. exfalso. apply E1. rewrite map_app, in_app_iff. right. apply assoc_some in E2. apply in_map_iff. eexists; split; [|exact E2]. reflexivity.
Qed.

Hypothesis alloc_ends : forall f, alloc f <> NoFuel.
Lemma copy_ends : forall fuel,
  (forall i st, (unvisited st < fuel)%nat -> copy_object alloc src fuel i st <> NoFuel /\
     forall st', copy_object alloc src fuel i st = Ok st' -> exists ext, c_map st' = ext ++ c_map st) /\
  (forall rs st, (unvisited st < fuel)%nat -> copy_refs alloc src fuel rs st <> NoFuel /\
     forall st', copy_refs alloc src fuel rs st = Ok st' -> exists ext, c_map st' = ext ++ c_map st).
Proof.
  induction fuel as [|fuel (IHo & IHr)]; [split; intros; lia|].
  assert (Ho : forall i st, (unvisited st < S fuel)%nat -> copy_object alloc src (S fuel) i st <> NoFuel /\
     forall st', copy_object alloc src (S fuel) i st = Ok st' -> exists ext, c_map st' = ext ++ c_map st).
  { intros i st Hf. rewrite copy_object_eq. destruct (assoc (c_map st) i) eqn:Ea; [split; [discriminate|]; intros st' E; injection E as <-; exists []; reflexivity|].
    destruct (lookup_id src i) as [v|] eqn:El; [|split; [discriminate|]; intros st' E; injection E as <-; exists []; reflexivity].
    assert (Hu : forall new, (unvisited {| c_map := (i, new) :: c_map st; c_dst := (fst new, snd new, v) :: c_dst st |} < fuel)%nat).
    { intros new. assert (H : (unvisited {| c_map := (i, new) :: c_map st; c_dst := (fst new, snd new, v) :: c_dst st |} < unvisited st)%nat); [|lia].
      unfold unvisited. cbn [c_map]. apply filter_lt with (y := (i, v)).
      - intros x. cbn [assoc]. destruct (same_id i (fst x)); [discriminate|]. auto.
      - apply lookup_in. exact El.
      - cbn [fst]. rewrite Ea. reflexivity.
      - cbn [fst assoc]. assert (E' : same_id i i = true) by (apply same_id_eq; reflexivity). rewrite E'. reflexivity. }
    split.
    - apply rbind_nofuel; [apply alloc_ends|]. intros new _. apply IHr. apply Hu.
    - intros st' E. apply rbind_ok in E. destruct E as (new & _ & E). apply IHr in E; [|apply Hu]. destruct E as (ext & E). cbn [c_map] in E.
      exists (ext ++ [(i, new)]). rewrite E, <- app_assoc. reflexivity. }
  split; [exact Ho|].
  induction rs as [|r rs IH]; intros st Hf; cbn [copy_refs].
  - split; [discriminate|]. intros st' E. injection E as <-. exists []. reflexivity.
  - destruct (Ho r st Hf) as (H1 & H2). split.
    + apply rbind_nofuel; [exact H1|]. intros st1 E. destruct (H2 _ E) as (ext & Ex). apply IH. pose proof (unvisited_le _ _ _ Ex). lia.
    + intros st' E. apply rbind_ok in E. destruct E as (st1 & E1 & E2). destruct (H2 _ E1) as (ext & Ex).
      destruct (IH st1) as (_ & H4); [pose proof (unvisited_le _ _ _ Ex); lia|]. destruct (H4 _ E2) as (ext' & Ex'). exists (ext' ++ ext).
      rewrite Ex', Ex, app_assoc. reflexivity.
Qed.
Lemma results_ends : forall m roots, results m roots <> NoFuel.
Proof.
  intros m. induction roots as [|[i|v] roots IH]; cbn [results]; try discriminate. destruct (assoc m i); [|discriminate]. apply rbind_nofuel; [exact IH|discriminate].
Qed.
Lemma deep_copy_ends : forall dst roots, deep_copy alloc src dst roots <> NoFuel.
Proof.
  intros dst roots. unfold deep_copy. apply rbind_nofuel.
  - apply copy_ends. unfold unvisited.
    apply PeanoNat.Nat.lt_succ_r. apply filter_len.
  - intros st _. apply rbind_nofuel; [apply results_ends|discriminate].
Qed.
End Copy.

Section Spec.
Variable alloc : file_objects -> res ident.
Hypothesis alloc_fresh : forall f i, alloc f = Ok i -> ~ In i (map fst f).
Variables src dst : file_objects.
Hypothesis src_unique : numbers_unique src.

Definition copies (m : list (ident * ident)) : file_objects :=
  map (fun e => (snd e, match lookup_id src (fst e) with Some v => v | None => VNull end)) m.
Definition good (st : cstate) : Prop :=
  NoDup (map fst (c_map st)) /\ NoDup (map snd (c_map st)) /\ (forall j, In j (map snd (c_map st)) -> ~ In j (map fst dst)) /\
  c_dst st = copies (c_map st) ++ dst /\ (forall i, In i (map fst (c_map st)) -> exists v, lookup_id src i = Some v).
Definition done_from (roots : list ident) (st st' : cstate) : Prop :=
  good st' /\ exists ext, c_map st' = ext ++ c_map st /\
    (forall j, In j (map fst ext) -> found_from src roots j) /\
    (forall j v r w, In j (map fst ext) -> lookup_id src j = Some v -> In r (value_refs v) -> lookup_id src r = Some w -> In r (map fst (c_map st'))) /\
    (forall i v, In i roots -> lookup_id src i = Some v -> In i (map fst (c_map st'))).

Lemma found_more : forall roots roots' i, (forall j v, In j roots -> holds src j v -> found_from src roots' j) -> found_from src roots i -> found_from src roots' i.
Proof. intros roots roots' i H Hf. induction Hf as [i v Hi Hv|i j v w Hf IH Hv Hc Hw]; [eapply H; eassumption|]. eapply ff_step; eassumption. Qed.

Lemma copy_spec : forall fuel,
  (forall i st st', good st -> copy_object alloc src fuel i st = Ok st' -> done_from [i] st st') /\
  (forall rs st st', good st -> copy_refs alloc src fuel rs st = Ok st' -> done_from rs st st').
Proof.
  induction fuel as [|fuel (IHo & IHr)].
  - split; [intros i st st' _ E; discriminate|]. intros [|r rs] st st' Hg E; [|discriminate]. injection E as <-. split; [exact Hg|].
    exists []. split; [reflexivity|]. repeat split; cbn; try tauto.
  - assert (Ho : forall i st st', good st -> copy_object alloc src (S fuel) i st = Ok st' -> done_from [i] st st').
    { intros i st st' Hg E. rewrite copy_object_eq in E. destruct (assoc (c_map st) i) as [j|] eqn:Ea.
      - injection E as <-. split; [exact Hg|]. exists []. split; [reflexivity|]. split; [cbn; tauto|]. split; [cbn; tauto|].
        intros k v [<-|[]] _. apply assoc_some in Ea. apply in_map_iff. exists (i, j). auto.
      - destruct (lookup_id src i) as [v|] eqn:El.
        + apply rbind_ok in E. destruct E as (new & En & E). apply alloc_fresh in En.
          destruct Hg as (G1 & G2 & G3 & G4 & G5). rewrite G4, map_app, in_app_iff in En.
          assert (Hsnd : map fst (copies (c_map st)) = map snd (c_map st)) by (unfold copies; rewrite map_map; apply map_ext; reflexivity).
          rewrite Hsnd in En.
          apply IHr in E.
          * destruct E as (Hg' & ext & Ex & Hr & Hc & Hroots). split; [exact Hg'|]. cbn [c_map] in Ex. exists (ext ++ [(i, new)]).
            split; [rewrite Ex, <- app_assoc; reflexivity|].
            assert (Hi : found_from src [i] i) by (eapply ff_root; [left; reflexivity|apply lookup_in; exact El]).
            split; [|split].
            -- intros j. rewrite map_app, in_app_iff. intros [Hj|[<-|[]]]; [|exact Hi]. eapply found_more; [|apply Hr; exact Hj].
               intros k w Hk Hw. eapply ff_step; [exact Hi|apply lookup_in; exact El|apply value_refs_spec; exact Hk|exact Hw].
            -- intros j u r w. rewrite map_app, in_app_iff. intros [Hj|[<-|[]]] Hu Hin Hw; [eapply Hc; eassumption|].
               cbn [fst] in Hu. rewrite El in Hu. injection Hu as <-. eapply Hroots; eassumption.
            -- intros k w [<-|[]] _. rewrite Ex, map_app, in_app_iff. right. left. reflexivity.
          * split; [|split; [|split; [|split]]]; cbn [c_map c_dst map fst snd].
            -- constructor; [|exact G1]. apply assoc_none. exact Ea.
            -- constructor; [|exact G2]. tauto.
            -- intros j [<-|Hj]; [tauto|apply G3; exact Hj].
            -- rewrite G4. unfold copies at 2. cbn [map fst snd]. rewrite El. destruct new. reflexivity.
            -- intros j [<-|Hj]; [exists v; exact El|apply G5; exact Hj].
        + injection E as <-. split; [exact Hg|]. exists []. split; [reflexivity|]. split; [cbn; tauto|]. split; [cbn; tauto|].
          intros k v [<-|[]] Hv. congruence. }
    split; [exact Ho|]. induction rs as [|r rs IH]; intros st st' Hg E; cbn [copy_refs] in E.
    + injection E as <-. split; [exact Hg|]. exists []. split; [reflexivity|]. repeat split; cbn; try tauto.
    + apply rbind_ok in E. destruct E as (st1 & E1 & E2). apply Ho in E1; [|exact Hg]. destruct E1 as (Hg1 & ext & Ex & Hr & Hc & Hroots).
      apply IH in E2; [|exact Hg1]. destruct E2 as (Hg2 & ext' & Ex' & Hr' & Hc' & Hroots'). split; [exact Hg2|]. exists (ext' ++ ext).
      split; [rewrite Ex', Ex, app_assoc; reflexivity|]. split; [|split].
      * intros j. rewrite map_app, in_app_iff. intros [Hj|Hj].
        -- eapply found_more; [|apply Hr'; exact Hj]. intros k w Hk Hw. eapply ff_root; [right; exact Hk|exact Hw].
        -- eapply found_more; [|apply Hr; exact Hj]. intros k w Hk Hw. eapply ff_root; [destruct Hk as [<-|[]]; left; reflexivity|exact Hw].
      * intros j v k w. rewrite map_app, in_app_iff. intros [Hj|Hj] Hv Hk Hw; [eapply Hc'; eassumption|].
        rewrite Ex', map_app, in_app_iff. right. eapply Hc; eassumption.
      * intros i v [<-|Hi] Hv; [|eapply Hroots'; eassumption]. rewrite Ex', map_app, in_app_iff. right. eapply Hroots; [left; reflexivity|exact Hv].
Qed.

Definition mapping (m : list (ident * ident)) (i : ident) : ident := match assoc m i with Some j => j | None => i end.
Lemma fix_renamed : forall m v, renamed (mapping m) v (fix_value m v).
Proof.
  intros m. induction v as [|x|q|q|n|h s|n g|l IH|l IH|l x IH] using value_ind'; cbn [fix_value]; try (constructor; fail).
  - replace (match assoc m (n, g) with Some i => VRef (fst i) (snd i) | None => VRef n g end)
      with (VRef (fst (mapping m (n, g))) (snd (mapping m (n, g)))); [constructor|]. unfold mapping. destruct (assoc m (n, g)); reflexivity.
  - constructor. induction IH; cbn [map]; constructor; auto.
  - constructor. induction IH; cbn [map]; constructor; auto.
  - constructor. induction IH; cbn [map]; constructor; auto.
Qed.
Lemma is_copy_spec : forall m i, is_copy m i = true <-> In i (map snd m).
Proof.
  intros m i. unfold is_copy. rewrite existsb_exists, in_map_iff. split; intros (e & H1 & H2).
  - apply same_id_eq in H2. exists e. auto.
  - exists e. split; [exact H2|]. apply same_id_eq. exact H1.
Qed.
Lemma fix_all_in : forall m f i v, In (i, v) (fix_all m f) <-> exists w, In (i, w) f /\ v = if is_copy m i then fix_value m w else w.
Proof.
  intros m f i v. unfold fix_all. rewrite in_map_iff. split.
  - intros ([[n g] w] & E & Hin). exists w. destruct (is_copy m (n, g)) eqn:Ec; injection E as <- <-; rewrite Ec; auto.
  - intros (w & Hin & ->). exists (i, w). destruct i as [n g]. split; [|exact Hin]. destruct (is_copy m (n, g)); reflexivity.
Qed.
Lemma results_spec : forall m roots r, results m (map HIndirect roots) = Ok r -> r = map (mapping m) roots.
Proof.
  intros m. induction roots as [|i roots IH]; intros r E; cbn [results map] in *; [injection E as <-; reflexivity|].
  unfold mapping at 1. destruct (assoc m i) as [j|]; [|discriminate]. apply rbind_ok in E. destruct E as (r' & E1 & E). injection E as <-.
  f_equal. apply IH. exact E1.
Qed.
Lemma handle_roots : forall roots, flat_map handle_refs (map HIndirect roots) = roots.
Proof. induction roots as [|i roots IH]; [reflexivity|]. cbn. f_equal. exact IH. Qed.

Lemma deep_copy_spec : forall roots r dst', numbers_unique dst -> references_resolve src roots ->
  deep_copy alloc src dst (map HIndirect roots) = Ok (r, dst') -> copied src dst roots r dst'.
Proof.
  intros roots r dst' Hdst (Hroots & Hres) E. unfold deep_copy in E. rewrite handle_roots in E. apply rbind_ok in E. destruct E as (st & E1 & E).
  apply rbind_ok in E. destruct E as (r' & E2 & E). injection E as <- <-. apply results_spec in E2. subst r'.
  apply copy_spec in E1.
  2:{ split; [constructor|]. split; [constructor|]. split; [cbn; tauto|]. split; [reflexivity|]. cbn; tauto. }
  destruct E1 as ((G1 & G2 & G3 & G4 & G5) & ext & Ex & Hr & Hc & Hi). cbn [c_map] in Ex. rewrite app_nil_r in Ex.
  set (m := c_map st) in *.
  assert (Hdom : forall i, found_from src roots i <-> In i (map fst m)).
  { intros i. split.
    - intros H. induction H as [i v Hin Hv|i j v w Hf IH Hv Hcr Hw].
      + eapply Hi; [exact Hin|apply in_lookup; eassumption].
      + eapply Hc; [rewrite <- Ex; exact IH|apply in_lookup; [exact src_unique|exact Hv]|apply value_refs_spec; exact Hcr|apply in_lookup; [exact src_unique|exact Hw]].
    - intros H. apply Hr. rewrite <- Ex. exact H. }
  assert (Hmap : forall i, In i (map fst m) -> In (i, mapping m i) m).
  { intros i Hin. unfold mapping. destruct (assoc m i) eqn:Ea; [apply assoc_some; exact Ea|]. apply assoc_none in Ea. contradiction. }
  assert (Himg : forall i, In i (map fst m) -> In (mapping m i) (map snd m)).
  { intros i Hin. apply in_map_iff. exists (i, mapping m i). auto. }
  assert (Hcopy : forall i v, In i (map fst m) -> lookup_id src i = Some v -> In (mapping m i, v) (c_dst st)).
  { intros i v Hin Hv. rewrite G4. apply in_app_iff. left. unfold copies. apply in_map_iff. exists (i, mapping m i). split; [cbn [fst snd]; rewrite Hv; reflexivity|]. auto. }
  exists (mapping m). repeat apply conj.
  - intros i j H1 H2 E. apply Hdom in H1, H2. apply Hmap in H1, H2. rewrite E in H1. revert G2 H1 H2. clear.
    generalize (mapping m j) as b. intros b. induction m as [|[x y] l IH]; intros Hd H1 H2; [destruct H1|]. cbn [map] in Hd. inversion Hd as [|? ? Hn Hd']; subst.
    destruct H1 as [H1|H1]; destruct H2 as [H2|H2].
    + congruence.
    + exfalso. apply Hn. injection H1 as _ ->. apply in_map_iff. exists (j, b). auto.
    + exfalso. apply Hn. injection H2 as _ ->. apply in_map_iff. exists (i, b). auto.
    + auto.
  - intros i H. apply Hdom in H. apply G3. apply Himg. exact H.
  - intros i v H Hv. apply Hdom in H. exists (fix_value m v). split; [|apply fix_renamed].
    apply fix_all_in. exists v. split; [apply Hcopy; [exact H|apply in_lookup; [exact src_unique|exact Hv]]|].
    assert (Ec : is_copy m (mapping m i) = true) by (apply is_copy_spec; apply Himg; exact H). rewrite Ec. reflexivity.
  - intros i v j H Hv Hcr. assert (Hw := Hres _ _ _ H Hv Hcr). split; [|intros _; exact Hw]. intros _. destruct Hw as (w & Hw).
    assert (Hj : found_from src roots j) by (eapply ff_step; eassumption). apply Hdom in Hj. eexists. apply fix_all_in. exists w. split; [|reflexivity].
    apply Hcopy; [exact Hj|]. apply in_lookup; [exact src_unique|exact Hw].
  - intros i v Hv. apply fix_all_in. exists v. split; [rewrite G4; apply in_app_iff; right; exact Hv|].
    destruct (is_copy m i) eqn:Ec; [|reflexivity]. apply is_copy_spec in Ec. exfalso. apply (G3 _ Ec). apply in_map_iff. exists (i, v). auto.
  - intros i v H. apply fix_all_in in H. destruct H as (w & Hin & Ev). rewrite G4 in Hin. apply in_app_iff in Hin. destruct Hin as [Hin|Hin].
    + right. unfold copies in Hin. apply in_map_iff in Hin. destruct Hin as ([a b] & E & Hin). cbn [fst snd] in E. injection E as <- _.
      exists a. split; [apply Hdom; apply in_map_iff; exists (a, b); auto|]. unfold mapping. rewrite (in_assoc _ _ _ G1 Hin). reflexivity.
    + left. destruct (is_copy m i) eqn:Ec; [|subst v; exact Hin]. apply is_copy_spec in Ec. exfalso. apply (G3 _ Ec). apply in_map_iff. exists (i, w). auto.
  - reflexivity.
Qed.
End Spec.

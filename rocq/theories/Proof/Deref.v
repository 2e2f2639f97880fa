(** Chains that end are followed to their end, whatever the reference objects remember. *)
From Coq Require Import List NArith Bool Lia PeanoNat.
From Verif.Model Require Import Deref.
From Verif.Spec Require Import Deref.
From Verif.Proof Require Import Tac.
Import ListNotations.
Local Open Scope N_scope.

(** unfolding *)
Lemma is_init_S : forall file user f s c, is_init file user (S f) s c =
  if negb (active file user s c) then Ret s false
  else match file (tgt file user c) with
       | INull => Ret s false
       | IOther _ => Ret s true
       | IRef _ => obind (fun s => s) (get file user f s [] (Obj (tgt file user c)))
                         (fun s1 o => Ret s1 (match o with INull => false | _ => true end))
       end.
Proof. reflexivity. Qed.
Lemma get_ref_S : forall file user f s c, get_ref file user (S f) s c =
  obind (fun s => s) (is_init file user f s c) (fun s1 b =>
    if b then Ret s1 (tgt file user c)
    else obind (fun s => s) (is_init file user f s1 c) (fun s2 b2 =>
      if b2 then Ret s2 (tgt file user c) else Ret (remember file user s2 c) (tgt file user c))).
Proof. reflexivity. Qed.
Lemma get_S : forall file user f s visited c, get file user (S f) s visited c =
  obind (fun s => destroy s visited)
    (match visited with [] => Ret s false | _ :: _ => is_init file user f s c end)
    (fun s1 _ =>
      if seen_number (tgt file user c) visited then Exc (destroy s1 visited)
      else
        let visited' := copy_of file user s1 c :: visited in
        obind (fun s => destroy s visited') (get_ref file user f s1 c) (fun s2 n =>
          match file n with
          | IRef _ => get file user f s2 visited' (Obj n)
          | o => Ret (destroy s2 visited') o
          end)).
Proof. reflexivity. Qed.

Section Deref.
Variable file : N -> iobj.
Variable user : N.
Notation tgt := (tgt file user).
Notation is_init := (is_init file user).
Notation get_ref := (get_ref file user).
Notation get := (get file user).

(** numbers on the chain from [n], [n] included *)
Inductive on_chain : N -> N -> Prop :=
| oc_here : forall n, on_chain n n
| oc_next : forall n m k, file n = IRef m -> on_chain m k -> on_chain n k.

Lemma on_chain_snoc : forall n k m, on_chain n k -> file k = IRef m -> on_chain n m.
Proof. induction 1 as [|n m' k E H IH]; intros Hk; eapply oc_next; eauto; constructor. Qed.

Lemma ends_acyclic : forall n o, ends_at file n o -> forall m, file n = IRef m -> ~ on_chain m n.
Proof.
  induction 1 as [n Hn|n m o E H IH]; intros m' E' Hc; [eapply Hn; eassumption|].
  assert (m' = m) by congruence. subst m'.
  inversion Hc as [|? k ? Ek Hk]; subst.
  - (* m = n *) eapply IH; [eassumption|constructor].
  - eapply IH; [exact Ek|]. eapply on_chain_snoc; eassumption.
Qed.

Definition ok_init (c : cell) : Prop := exists F, forall fuel s, (F <= fuel)%nat -> exists s' b, is_init fuel s c = Ret s' b.
Definition ok_ref (c : cell) : Prop := exists F, forall fuel s, (F <= fuel)%nat -> exists s', get_ref fuel s c = Ret s' (tgt c).
Definition ok_get (c : cell) (o : iobj) : Prop := exists F, forall fuel s visited, (F <= fuel)%nat ->
  (forall k, on_chain (tgt c) k -> seen_number k visited = false) -> exists s', get fuel s visited c = Ret s' o.

Lemma init_ref : forall c, ok_init c -> ok_ref c.
Proof.
  intros c (F & HF). exists (S F). intros fuel s Hf. destruct fuel as [|fuel]; [lia|]. rewrite get_ref_S; cbv zeta.
  destruct (HF fuel s) as (s1 & b & E); [lia|]. rewrite E. cbn [obind]. destruct b; [eexists; reflexivity|].
  destruct (HF fuel s1) as (s2 & b2 & E2); [lia|]. rewrite E2. cbn [obind]. destruct b2; eexists; reflexivity.
Qed.

Lemma seen_cons : forall k e visited, seen_number k (e :: visited) = (fst e =? k) || seen_number k visited.
Proof. reflexivity. Qed.

Lemma chain_ok : forall n o, ends_at file n o -> forall c, tgt c = n -> ok_init c /\ ok_get c o.
Proof.
  intros n o H. induction H as [n Hn|n m o E H IH]; intros c Hc.
  - assert (Hi : ok_init c).
    { exists 1%nat. intros fuel s Hf. destruct fuel as [|fuel]; [lia|]. rewrite is_init_S; cbv zeta. rewrite Hc.
      destruct (negb (active file user s c)); [eexists _, _; reflexivity|].
      destruct (file n) as [m| |v] eqn:En; [exfalso; eapply Hn; reflexivity|..]; eexists _, _; reflexivity. }
    split; [exact Hi|]. destruct (init_ref c Hi) as (F2 & H2). destruct Hi as (F1 & H1).
    exists (S (F1 + F2)). intros fuel s visited Hf Hv. destruct fuel as [|fuel]; [lia|]. rewrite get_S; cbv zeta.
    assert (Hs : seen_number (tgt c) visited = false) by (apply Hv; constructor).
    assert (Hm : exists s1 b, match visited with [] => Ret s false | _ :: _ => is_init fuel s c end = Ret s1 b).
    { destruct visited; [eexists _, _; reflexivity|]. apply H1. lia. }
    destruct Hm as (s1 & b & ->). cbn [obind]. rewrite Hs.
    destruct (H2 fuel s1) as (s2 & ->); [lia|]. cbn [obind]. rewrite Hc.
    destruct (file n) as [m| |v] eqn:En; [exfalso; eapply Hn; reflexivity|..]; eexists; reflexivity.
  - assert (Hobj : tgt (Obj n) = m) by (cbn; rewrite E; reflexivity).
    destruct (IH (Obj n) Hobj) as (_ & (FG & HG)).
    assert (Hi : ok_init c).
    { exists (S FG). intros fuel s Hf. destruct fuel as [|fuel]; [lia|]. rewrite is_init_S; cbv zeta. rewrite Hc, E.
      destruct (negb (active file user s c)); [eexists _, _; reflexivity|].
      destruct (HG fuel s []) as (s1 & E1); [lia|intros; reflexivity|]. rewrite E1. cbn [obind]. eexists _, _; reflexivity. }
    split; [exact Hi|]. destruct (init_ref c Hi) as (F2 & H2). destruct Hi as (F1 & H1).
    exists (S (FG + F1 + F2)). intros fuel s visited Hf Hv. destruct fuel as [|fuel]; [lia|]. rewrite get_S; cbv zeta.
    assert (Hs : seen_number (tgt c) visited = false) by (apply Hv; constructor).
    assert (Hm : exists s1 b, match visited with [] => Ret s false | _ :: _ => is_init fuel s c end = Ret s1 b).
    { destruct visited; [eexists _, _; reflexivity|]. apply H1. lia. }
    destruct Hm as (s1 & b & ->). cbn [obind]. rewrite Hs.
    destruct (H2 fuel s1) as (s2 & ->); [lia|]. cbn [obind]. rewrite Hc, E.
    apply HG; [lia|]. rewrite Hobj. intros k Hk. rewrite seen_cons. cbn [copy_of fst].
    apply orb_false_iff. split.
    + apply N.eqb_neq. rewrite Hc. intros <-. eapply (ends_acyclic n o); [eapply ends_later; eassumption|exact E|exact Hk].
    + apply Hv. rewrite Hc. eapply oc_next; eassumption.
Qed.
End Deref.

(** *** A cycle on fresh references *)
Section Cycle.
Variable file : N -> iobj.
Variable user : N.
Notation tgt := (tgt file user).

(** cells not remembered yet answer at once *)
Lemma fresh_init : forall f s c, cached s c = false -> is_init file user (S f) s c = Ret s false.
Proof. intros f s c H. rewrite is_init_S; cbv zeta. unfold active. rewrite H. reflexivity. Qed.

Lemma fresh_ref : forall f s c, cached s c = false -> get_ref file user (S (S f)) s c = Ret (remember file user s c) (tgt c).
Proof. intros f s c H. rewrite get_ref_S, (fresh_init _ _ _ H). cbn [obind]. rewrite (fresh_init _ _ _ H). reflexivity. Qed.

Lemma cell_eqb_refl : forall c, cell_eqb c c = true.
Proof. intros [|n]; cbn; [reflexivity|apply N.eqb_refl]. Qed.
Lemma cell_eqb_neq : forall c d, c <> d -> cell_eqb c d = false.
Proof. intros [|n] [|m] H; cbn; try reflexivity; try congruence. apply N.eqb_neq. congruence. Qed.

Lemma destroy_cached : forall v s c, cached (destroy s v) c = cached s c.
Proof.
  unfold destroy. induction v as [|[n [k|]] v IH]; intros s c; cbn [fold_left snd]; [reflexivity|rewrite IH; reflexivity|apply IH].
Qed.

(** the numbers of the visited entries are exactly the targets of the remembered cells *)
Lemma cycle_get : forall fuel s (visited : list entry) c,
  cached s c = false ->
  (forall n, cached s (Obj n) = true \/ c = Obj n -> In n (map fst visited)) ->
  NoDup (map fst visited) ->
  (forall o, ~ ends_at file (tgt c) o) ->
  (exists s', get file user fuel s visited c = Exc s') \/ get file user fuel s visited c = Running.
Proof.
  induction fuel as [|fuel IH]; intros s visited c Hc Hcells Hnd Hne; [right; reflexivity|].
  rewrite get_S; cbv zeta.
  destruct fuel as [|fuel'].
  { destruct visited; [right; reflexivity|]. right; reflexivity. }
  set (fuel := S fuel') in *.
  assert (Hm : match visited with [] => Ret s false | _ :: _ => is_init file user fuel s c end = Ret s false).
  { destruct visited; [reflexivity|]. apply fresh_init, Hc. }
  rewrite Hm. cbn [obind]. destruct (seen_number (tgt c) visited) eqn:Es; [left; eexists; reflexivity|].
  destruct fuel' as [|fuel'']; [right; reflexivity|].
  assert (Hr : get_ref file user fuel s c = Ret (remember file user s c) (tgt c)) by (apply fresh_ref, Hc).
  rewrite Hr. cbn [obind].
  destruct (file (tgt c)) as [m| |v] eqn:E.
  - apply IH.
    + cbn [remember cached]. unfold cell_upd. destruct (cell_eqb (Obj (tgt c)) c) eqn:Ec.
      * exfalso. destruct c as [|n]; [discriminate|]. cbn [cell_eqb] in Ec. apply N.eqb_eq in Ec.
        assert (Hin : In n (map fst visited)) by (apply Hcells; auto).
        assert (Hs : seen_number n visited = true).
        { apply existsb_exists. apply in_map_iff in Hin. destruct Hin as (e & <- & Hin). exists e. split; [exact Hin|apply N.eqb_refl]. }
        rewrite Ec in Es. congruence.
      * destruct (cached s (Obj (tgt c))) eqn:E'; [|reflexivity]. exfalso.
        assert (Hin : In (tgt c) (map fst visited)) by (apply Hcells; auto).
        assert (Hs : seen_number (tgt c) visited = true).
        { apply existsb_exists. apply in_map_iff in Hin. destruct Hin as (e & <- & Hin). exists e. split; [exact Hin|apply N.eqb_refl]. }
        congruence.
    + intros n Hn. cbn [map copy_of fst]. destruct Hn as [Hn|Hn]; [|injection Hn as ->; left; reflexivity].
      cbn [remember cached] in Hn. unfold cell_upd in Hn. right. destruct (cell_eqb (Obj n) c) eqn:Ec.
      * apply Hcells. right. destruct c as [|k]; [discriminate|]. cbn in Ec. apply N.eqb_eq in Ec. congruence.
      * apply Hcells. left. exact Hn.
    + cbn [map copy_of fst]. constructor; [|exact Hnd]. intros Hin.
      assert (Hs : seen_number (tgt c) visited = true).
      { apply existsb_exists. apply in_map_iff in Hin. destruct Hin as (e & <- & Hin). exists e. split; [exact Hin|apply N.eqb_refl]. }
      congruence.
    + intros o Ho. apply (Hne o). cbn [Deref.tgt] in Ho. rewrite E in Ho. eapply ends_later; eassumption.
  - exfalso. apply (Hne INull). rewrite <- E. constructor. intros m. congruence.
  - exfalso. apply (Hne (IOther v)). rewrite <- E. constructor. intros m. congruence.
Qed.

(** ... and it does not run forever when the file has finitely many objects *)
Lemma cycle_ends : forall fuel s (visited : list entry) c objs,
  (forall n m, file n = IRef m -> In n objs) ->
  cached s c = false ->
  (forall n, cached s (Obj n) = true \/ c = Obj n -> In n (map fst visited)) ->
  NoDup (map fst visited) -> (forall n, In n (map fst visited) -> In n objs) ->
  (length objs + 4 <= fuel + length visited)%nat ->
  get file user fuel s visited c <> Running.
Proof.
  induction fuel as [|fuel IH]; intros s visited c objs Hobjs Hc Hcells Hnd Hsub Hfuel.
  { pose proof (NoDup_incl_length Hnd Hsub) as Hlen. rewrite map_length in Hlen. change (N * option N)%type with entry in Hlen. lia. }
  pose proof (NoDup_incl_length Hnd Hsub) as Hlen. rewrite map_length in Hlen. change (N * option N)%type with entry in Hlen.
  rewrite get_S; cbv zeta. destruct fuel as [|fuel']; [lia|]. set (fuel := S fuel') in *.
  assert (Hm : match visited with [] => Ret s false | _ :: _ => is_init file user fuel s c end = Ret s false).
  { destruct visited; [reflexivity|]. apply fresh_init, Hc. }
  rewrite Hm. cbn [obind]. destruct (seen_number (tgt c) visited) eqn:Es; [discriminate|].
  destruct fuel' as [|fuel'']; [lia|].
  assert (Hr : get_ref file user fuel s c = Ret (remember file user s c) (tgt c)) by (apply fresh_ref, Hc).
  rewrite Hr. cbn [obind].
  assert (Hseen : forall n, In n (map fst visited) -> seen_number n visited = true).
  { intros n Hin. apply existsb_exists. apply in_map_iff in Hin. destruct Hin as (e & <- & Hin). exists e. split; [exact Hin|apply N.eqb_refl]. }
  destruct (file (tgt c)) as [m| |v] eqn:E; [|discriminate..].
  apply (IH _ _ _ objs Hobjs).
  - cbn [remember cached]. unfold cell_upd. destruct (cell_eqb (Obj (tgt c)) c) eqn:Ec.
    + exfalso. destruct c as [|n]; [discriminate|]. cbn [cell_eqb] in Ec. apply N.eqb_eq in Ec.
      assert (Hs : seen_number n visited = true) by (apply Hseen, Hcells; auto). rewrite Ec in Es. congruence.
    + destruct (cached s (Obj (tgt c))) eqn:E'; [|reflexivity]. exfalso.
      assert (Hs : seen_number (tgt c) visited = true) by (apply Hseen, Hcells; auto). congruence.
  - intros n Hn. cbn [map copy_of fst]. destruct Hn as [Hn|Hn]; [|injection Hn as ->; left; reflexivity].
    cbn [remember cached] in Hn. unfold cell_upd in Hn. right. destruct (cell_eqb (Obj n) c) eqn:Ec.
    + apply Hcells. right. destruct c as [|k]; [discriminate|]. cbn in Ec. apply N.eqb_eq in Ec. congruence.
    + apply Hcells. left. exact Hn.
  - cbn [map copy_of fst]. constructor; [|exact Hnd]. intros Hin. rewrite (Hseen _ Hin) in Es. discriminate.
  - cbn [map copy_of fst]. intros n [<-|Hin]; [eapply Hobjs, E|apply Hsub, Hin].
  - cbn [length]. unfold fuel. lia.
Qed.
End Cycle.

(** *** An object that refers to itself, asked twice *)
Section Self.
Variable file : N -> iobj.
Variable user : N.
Hypothesis self : file 1 = IRef 1.

Lemma self_runs : forall fuel s, active file user s (Obj 1) = true ->
  is_init file user fuel s (Obj 1) = Running /\ get_ref file user fuel s (Obj 1) = Running /\
  forall visited, get file user fuel s visited (Obj 1) = Running.
Proof.
  induction fuel as [|fuel IH]; intros s Ha; [split; [reflexivity|split; [reflexivity|intros; reflexivity]]|].
  assert (T : tgt file user (Obj 1) = 1) by (cbn; rewrite self; reflexivity).
  destruct (IH s Ha) as (H1 & H2 & H3). split; [|split].
  - rewrite is_init_S; cbv zeta. rewrite Ha. cbn [negb]. rewrite T, self, H3. reflexivity.
  - rewrite get_ref_S; cbv zeta. rewrite H1. reflexivity.
  - intros visited. rewrite get_S; cbv zeta. destruct visited as [|e v].
    + cbn [obind]. change (seen_number (tgt file user (Obj 1)) []) with false. cbv iota. rewrite H2. reflexivity.
    + rewrite H1. reflexivity.
Qed.
End Self.

(** Proofs about Model/RefCount.v *)
From Coq Require Import List NArith Bool PeanoNat Lia.
From Verif.Model Require Import Base RefCount.
From Verif.Spec Require Import RefCount.
From Verif.Proof Require Import Tac.
Import ListNotations.
Local Open Scope nat_scope.

Lemma Ok_inj : forall {A} (a b : A), Ok a = Ok b -> a = b.
Proof. congruence. Qed.
Lemma set_nth_length : forall {A} (l : list A) i x, List.length (set_nth l i x) = List.length l.
Proof. induction l as [|a l IH]; intros [|i] x; cbn; auto. Qed.
Lemma set_nth_eq : forall {A} (l : list A) i x, i < List.length l -> nth_error (set_nth l i x) i = Some x.
Proof. induction l as [|a l IH]; intros [|i] x H; cbn in *; try lia; auto. apply IH. lia. Qed.
Lemma set_nth_other : forall {A} (l : list A) i j x, i <> j -> nth_error (set_nth l i x) j = nth_error l j.
Proof. induction l as [|a l IH]; intros [|i] [|j] x H; cbn; auto; try lia. Qed.
Lemma nth_error_lt : forall {A} (l : list A) i x, nth_error l i = Some x -> i < List.length l.
Proof. intros A l i x H. apply nth_error_Some. congruence. Qed.
Lemma lt_nth_error : forall {A} (l : list A) i, i < List.length l -> exists x, nth_error l i = Some x.
Proof. intros A l i H. destruct (nth_error l i) eqn:E; [eauto|]. apply nth_error_None in E. lia. Qed.

(** how many handles refer to an object *)
Definition one (o : nat) (p : option nat) : nat := match p with Some o' => if Nat.eqb o o' then 1 else 0 | None => 0 end.
Fixpoint occ (o : nat) (l : list (option nat)) : nat := match l with [] => 0 | p :: r => one o p + occ o r end.
Lemma occ_set : forall o l i old p, nth_error l i = Some old -> occ o (set_nth l i p) + one o old = occ o l + one o p.
Proof.
  intros o l. induction l as [|a l IH]; intros [|i] old p H; cbn in *; try discriminate.
  - injection H as ->. lia.
  - specialize (IH i old p H). lia.
Qed.
Lemma occ_pos : forall o l, 0 < occ o l <-> exists i, nth_error l i = Some (Some o).
Proof.
  intros o l. induction l as [|a l IH]; cbn [occ].
  - split; [lia|]. intros ([|i] & H); discriminate.
  - split.
    + intros H. destruct a as [o'|]; cbn [one] in H.
      * destruct (Nat.eqb o o') eqn:E; [apply Nat.eqb_eq in E; subst; now exists 0|]. destruct (proj1 IH) as (i & Hi); [lia|]. now exists (S i).
      * destruct (proj1 IH) as (i & Hi); [lia|]. now exists (S i).
    + intros ([|i] & Hi); cbn in Hi.
      * injection Hi as ->. cbn [one]. rewrite Nat.eqb_refl. lia.
      * assert (0 < occ o l) by (apply IH; eauto). lia.
Qed.
Lemma occ_le : forall o l, occ o l <= List.length l.
Proof. intros o l. induction l as [|[o'|] l IH]; cbn [occ one List.length]; try destruct (Nat.eqb o o'); lia. Qed.
Lemma occ_ge : forall o l i, nth_error l i = Some (Some o) -> 0 < occ o l.
Proof. intros. apply occ_pos. eauto. Qed.

(** the invariant; [ex] are the references of temporaries *)
Record inv (s : store) (ex : list (option nat)) : Prop := {
  inv_count : forall o c, nth_error (cells s) o = Some c -> count c = N.of_nat (occ o (handles s) + occ o ex);
  inv_freed : forall o c, nth_error (cells s) o = Some c -> (freed c = true <-> occ o (handles s) + occ o ex = 0);
  inv_made : forall o, 0 < occ o (handles s) + occ o ex -> o < List.length (cells s);
  inv_flag : forall o c f, nth_error (cells s) o = Some c -> weak c = Some f -> nth_error (flags s) f = Some (negb (freed c));
  inv_own : forall o o' c c' f, nth_error (cells s) o = Some c -> nth_error (cells s) o' = Some c' -> weak c = Some f -> weak c' = Some f -> o = o';
  inv_weak : forall w o f, nth_error (weaks s) w = Some (Some (o, Some f)) -> exists c, nth_error (cells s) o = Some c /\ weak c = Some f;
  inv_nodup : NoDup (destroyed s);
  inv_dest : forall o, In o (destroyed s) <-> exists c, nth_error (cells s) o = Some c /\ freed c = true;
  inv_small : (N.of_nat (List.length (handles s) + List.length ex + 2) < 2 ^ 32)%N
}.

Ltac split_inv H := destruct H as [Hcount Hfreed Hmade Hflag Hown Hweak Hnodup Hdest Hsmall].

Lemma inv_perm : forall s ex ex', (forall o, occ o ex' = occ o ex) -> List.length ex' = List.length ex -> inv s ex -> inv s ex'.
Proof.
  intros s ex ex' Ho Hl H. split_inv H. constructor; auto.
  - intros. rewrite Ho. auto.
  - intros. rewrite Ho. auto.
  - intros o. rewrite Ho. auto.
  - rewrite Hl. exact Hsmall.
Qed.
Lemma inv_drop_none : forall s ex, inv s (None :: ex) -> inv s ex.
Proof. intros s ex H. split_inv H. constructor; auto. cbn [List.length] in Hsmall. lia. Qed.

(** a handle is given another pointer; what it held becomes a temporary *)
Lemma inv_set_handle : forall s i old p ex, nth_error (handles s) i = Some old -> inv s (p :: ex) -> inv (set_handle s i p) (old :: ex).
Proof.
  intros s i old p ex Hi H. split_inv H.
  assert (Ho : forall o, occ o (handles (set_handle s i p)) + occ o (old :: ex) = occ o (handles s) + occ o (p :: ex)).
  { intros o. pose proof (occ_set o (handles s) i old p Hi). cbn [occ set_handle handles]. lia. }
  constructor; cbn [set_handle cells flags weaks destroyed]; auto.
  - intros. rewrite Ho. auto.
  - intros. rewrite Ho. auto.
  - intros o. rewrite Ho. auto.
  - cbn [set_handle handles]. rewrite set_nth_length. cbn [List.length] in *. exact Hsmall.
Qed.

Lemma small_count : forall s ex o, inv s ex -> (N.of_nat (occ o (handles s) + occ o ex) + 1 < 2 ^ 32)%N.
Proof. intros s ex o H. pose proof (inv_small _ _ H). pose proof (occ_le o (handles s)). pose proof (occ_le o ex). lia. Qed.

Lemma release_ok : forall s o ex, inv s (Some o :: ex) -> exists s', release s o = Ok s' /\ inv s' ex /\
  handles s' = handles s /\ weaks s' = weaks s /\ List.length (cells s') = List.length (cells s).
Proof.
  intros s o ex H. pose proof (small_count _ _ o H) as Hs. split_inv H. cbn [occ one] in *. rewrite Nat.eqb_refl in *.
  assert (Ho : o < List.length (cells s)) by (apply Hmade; rewrite Nat.eqb_refl; lia). destruct (lt_nth_error _ _ Ho) as (c & Ec).
  unfold release. rewrite Ec. assert (Hf : freed c = false).
  { destruct (freed c) eqn:E; [|reflexivity]. apply (Hfreed o c Ec) in E. rewrite Nat.eqb_refl in E. lia. }
  rewrite Hf. pose proof (Hcount o c Ec) as Hc. rewrite Nat.eqb_refl in Hc. cbv zeta.
  set (k := occ o (handles s) + occ o ex) in *.
  assert (Hn : ((count c + (2 ^ 32 - 1)) mod 2 ^ 32 = N.of_nat k)%N).
  { rewrite Hc. replace (N.of_nat (occ o (handles s) + (1 + occ o ex)) + (2 ^ 32 - 1))%N with (N.of_nat k + 1 * 2 ^ 32)%N.
    - rewrite N.mod_add by discriminate. apply N.mod_small. unfold k. lia.
    - unfold k. change (2 ^ 32 - 1)%N with 4294967295%N. change (2 ^ 32)%N with 4294967296%N. lia. }
  rewrite Hn.
  assert (Hsm : (N.of_nat (List.length (handles s) + List.length ex + 2) < 2 ^ 32)%N) by (cbn [List.length] in Hsmall; lia).
  assert (Heq : forall o', o' <> o -> (if Nat.eqb o' o then 1 else 0) = 0) by (intros o' Hne; rewrite (proj2 (Nat.eqb_neq _ _) Hne); reflexivity).
  destruct (N.of_nat k =? 0)%N eqn:Ek.
  - apply N.eqb_eq in Ek. eexists. split; [reflexivity|]. split; [|cbn; rewrite ?set_nth_length; auto].
    constructor; cbn [cells flags handles weaks destroyed set_cell].
    + intros o' c' E'. destruct (Nat.eq_dec o' o) as [->|Hne].
      * rewrite set_nth_eq in E' by exact Ho. injection E' as <-. cbn [count]. unfold k in *. lia.
      * rewrite set_nth_other in E' by congruence. rewrite (Hcount o' c' E'), (Heq o' Hne). reflexivity.
    + intros o' c' E'. destruct (Nat.eq_dec o' o) as [->|Hne].
      * rewrite set_nth_eq in E' by exact Ho. injection E' as <-. cbn [freed]. unfold k in *. split; [lia|reflexivity].
      * rewrite set_nth_other in E' by congruence. rewrite (Hfreed o' c' E'), (Heq o' Hne). reflexivity.
    + intros o' Hp. rewrite set_nth_length. apply Hmade. lia.
    + intros o' c' f E' Ew. destruct (Nat.eq_dec o' o) as [->|Hne].
      * rewrite set_nth_eq in E' by exact Ho. injection E' as <-. cbn [weak freed] in *. rewrite Ew. pose proof (Hflag o c f Ec Ew) as Hfl.
        apply set_nth_eq. eapply nth_error_lt; exact Hfl.
      * rewrite set_nth_other in E' by congruence. pose proof (Hflag o' c' f E' Ew) as Hfl. destruct (weak c) as [g|] eqn:Eg; [|exact Hfl].
        rewrite set_nth_other; [exact Hfl|]. intros ->. apply Hne. eapply Hown; eassumption.
    + intros o1 o2 c1 c2 f E1 E2 W1 W2.
      assert (Hg : forall x cx, nth_error (set_nth (cells s) o {| count := N.of_nat k; freed := true; weak := weak c |}) x = Some cx -> exists cy, nth_error (cells s) x = Some cy /\ weak cy = weak cx).
      { intros x cx Ex. destruct (Nat.eq_dec x o) as [->|Hne]; [rewrite set_nth_eq in Ex by exact Ho; injection Ex as <-; now exists c|].
        rewrite set_nth_other in Ex by congruence. now exists cx. }
      destruct (Hg _ _ E1) as (d1 & D1 & V1). destruct (Hg _ _ E2) as (d2 & D2 & V2). eapply (Hown o1 o2 d1 d2 f); congruence.
    + intros w o' f E'. destruct (Hweak w o' f E') as (c' & E1 & E2). destruct (Nat.eq_dec o' o) as [->|Hne].
      * rewrite set_nth_eq by exact Ho. eexists. split; [reflexivity|]. cbn [weak]. congruence.
      * rewrite set_nth_other by congruence. eauto.
    + constructor; [|exact Hnodup]. intros Hi. apply Hdest in Hi. destruct Hi as (c' & E1 & E2). congruence.
    + intros o'. cbn [In]. rewrite Hdest. destruct (Nat.eq_dec o' o) as [->|Hne].
      * rewrite set_nth_eq by exact Ho. split; [intros _; eexists; split; reflexivity|now left].
      * rewrite set_nth_other by congruence. split; [intros [E|E]; [congruence|exact E]|now right].
    + exact Hsm.
  - apply N.eqb_neq in Ek. eexists. split; [reflexivity|]. split; [|cbn; rewrite ?set_nth_length; auto].
    constructor; cbn [cells flags handles weaks destroyed set_cell].
    + intros o' c' E'. destruct (Nat.eq_dec o' o) as [->|Hne].
      * rewrite set_nth_eq in E' by exact Ho. injection E' as <-. reflexivity.
      * rewrite set_nth_other in E' by congruence. rewrite (Hcount o' c' E'), (Heq o' Hne). reflexivity.
    + intros o' c' E'. destruct (Nat.eq_dec o' o) as [->|Hne].
      * rewrite set_nth_eq in E' by exact Ho. injection E' as <-. cbn [freed]. unfold k in *. split; [discriminate|lia].
      * rewrite set_nth_other in E' by congruence. rewrite (Hfreed o' c' E'), (Heq o' Hne). reflexivity.
    + intros o' Hp. rewrite set_nth_length. apply Hmade. lia.
    + intros o' c' f E' Ew. destruct (Nat.eq_dec o' o) as [->|Hne].
      * rewrite set_nth_eq in E' by exact Ho. injection E' as <-. cbn [weak freed] in *. rewrite <- Hf. eapply Hflag; eassumption.
      * rewrite set_nth_other in E' by congruence. eapply Hflag; eassumption.
    + intros o1 o2 c1 c2 f E1 E2 W1 W2.
      assert (Hg : forall x cx, nth_error (set_nth (cells s) o {| count := N.of_nat k; freed := false; weak := weak c |}) x = Some cx -> exists cy, nth_error (cells s) x = Some cy /\ weak cy = weak cx).
      { intros x cx Ex. destruct (Nat.eq_dec x o) as [->|Hne]; [rewrite set_nth_eq in Ex by exact Ho; injection Ex as <-; now exists c|].
        rewrite set_nth_other in Ex by congruence. now exists cx. }
      destruct (Hg _ _ E1) as (d1 & D1 & V1). destruct (Hg _ _ E2) as (d2 & D2 & V2). eapply (Hown o1 o2 d1 d2 f); congruence.
    + intros w o' f E'. destruct (Hweak w o' f E') as (c' & E1 & E2). destruct (Nat.eq_dec o' o) as [->|Hne].
      * rewrite set_nth_eq by exact Ho. eexists. split; [reflexivity|]. cbn [weak]. congruence.
      * rewrite set_nth_other by congruence. eauto.
    + exact Hnodup.
    + intros o'. rewrite Hdest. destruct (Nat.eq_dec o' o) as [->|Hne].
      * rewrite set_nth_eq by exact Ho. split; intros (c' & E1 & E2); [congruence|]. injection E1 as <-. discriminate.
      * rewrite set_nth_other by congruence. reflexivity.
    + exact Hsm.
Qed.

(** a reference is added to an object that lives *)
Lemma add_ref_ok : forall s o ex, inv s ex -> 0 < occ o (handles s) + occ o ex ->
  (N.of_nat (List.length (handles s) + List.length ex + 3) < 2 ^ 32)%N ->
  exists s', add_ref s o = Ok s' /\ inv s' (Some o :: ex) /\ handles s' = handles s /\ weaks s' = weaks s /\ List.length (cells s') = List.length (cells s).
Proof.
  intros s o ex H Hpos Hb. pose proof (small_count _ _ o H) as Hs. split_inv H.
  assert (Ho : o < List.length (cells s)) by (apply Hmade; exact Hpos). destruct (lt_nth_error _ _ Ho) as (c & Ec).
  unfold add_ref. rewrite Ec. assert (Hf : freed c = false).
  { destruct (freed c) eqn:E; [|reflexivity]. apply (Hfreed o c Ec) in E. lia. }
  rewrite Hf. pose proof (Hcount o c Ec) as Hc. rewrite Hc. rewrite N.mod_small by exact Hs.
  eexists. split; [reflexivity|]. split; [|cbn; rewrite ?set_nth_length; auto].
  assert (Heq : forall o', o' <> o -> (if Nat.eqb o' o then 1 else 0) = 0) by (intros o' Hne; rewrite (proj2 (Nat.eqb_neq _ _) Hne); reflexivity).
  constructor; cbn [cells flags handles weaks destroyed set_cell occ one].
  - intros o' c' E'. destruct (Nat.eq_dec o' o) as [->|Hne].
    + rewrite set_nth_eq in E' by exact Ho. injection E' as <-. cbn [count]. rewrite Nat.eqb_refl. lia.
    + rewrite set_nth_other in E' by congruence. rewrite (Heq o' Hne). apply (Hcount o' c' E').
  - intros o' c' E'. destruct (Nat.eq_dec o' o) as [->|Hne].
    + rewrite set_nth_eq in E' by exact Ho. injection E' as <-. cbn [freed]. rewrite Nat.eqb_refl. split; [discriminate|lia].
    + rewrite set_nth_other in E' by congruence. rewrite (Heq o' Hne). apply (Hfreed o' c' E').
  - intros o' Hp. rewrite set_nth_length. destruct (Nat.eq_dec o' o) as [->|Hne]; [exact Ho|]. rewrite (Heq o' Hne) in Hp. apply Hmade. lia.
  - intros o' c' f E' Ew. destruct (Nat.eq_dec o' o) as [->|Hne].
    + rewrite set_nth_eq in E' by exact Ho. injection E' as <-. cbn [weak freed] in *. rewrite <- Hf. eapply Hflag; eassumption.
    + rewrite set_nth_other in E' by congruence. eapply Hflag; eassumption.
  - intros o1 o2 c1 c2 f E1 E2 W1 W2.
    assert (Hg : forall x cx, nth_error (set_nth (cells s) o {| count := (N.of_nat (occ o (handles s) + occ o ex) + 1)%N; freed := false; weak := weak c |}) x = Some cx -> exists cy, nth_error (cells s) x = Some cy /\ weak cy = weak cx).
    { intros x cx Ex. destruct (Nat.eq_dec x o) as [->|Hne]; [rewrite set_nth_eq in Ex by exact Ho; injection Ex as <-; now exists c|].
      rewrite set_nth_other in Ex by congruence. now exists cx. }
    destruct (Hg _ _ E1) as (d1 & D1 & V1). destruct (Hg _ _ E2) as (d2 & D2 & V2). eapply (Hown o1 o2 d1 d2 f); congruence.
  - intros w o' f E'. destruct (Hweak w o' f E') as (c' & E1 & E2). destruct (Nat.eq_dec o' o) as [->|Hne].
    + rewrite set_nth_eq by exact Ho. eexists. split; [reflexivity|]. cbn [weak]. congruence.
    + rewrite set_nth_other by congruence. eauto.
  - exact Hnodup.
  - intros o'. rewrite Hdest. destruct (Nat.eq_dec o' o) as [->|Hne].
    + rewrite set_nth_eq by exact Ho. split; intros (c' & E1 & E2); [congruence|]. injection E1 as <-. discriminate.
    + rewrite set_nth_other by congruence. reflexivity.
  - cbn [List.length]. lia.
Qed.

(** a new object with its first reference *)
Lemma new_ok : forall s ex, inv s ex -> (N.of_nat (List.length (handles s) + List.length ex + 3) < 2 ^ 32)%N ->
  exists s', add_ref (snd (new_object s None)) (List.length (cells s)) = Ok s' /\ inv s' (Some (List.length (cells s)) :: ex) /\ handles s' = handles s /\ weaks s' = weaks s.
Proof.
  intros s ex H Hb. split_inv H. set (o := List.length (cells s)).
  assert (Hz : occ o (handles s) + occ o ex = 0).
  { destruct (occ o (handles s) + occ o ex) eqn:E; [reflexivity|]. assert (o < List.length (cells s)) by (apply Hmade; lia). unfold o in *. lia. }
  unfold add_ref, new_object. cbn [snd cells]. rewrite nth_error_app2 by (unfold o; lia). unfold o at 1. rewrite Nat.sub_diag. cbn [nth_error freed count].
  rewrite N.mod_small by reflexivity. eexists. split; [reflexivity|]. split; [|split; reflexivity].
  assert (Hl : o < List.length (cells s ++ [{| count := 0; freed := false; weak := None |}])) by (rewrite app_length; unfold o; cbn; lia).
  assert (Hcases : forall x cx, nth_error (set_nth (cells s ++ [{| count := 0; freed := false; weak := None |}]) o {| count := 0 + 1; freed := false; weak := None |}) x = Some cx ->
    (x = o /\ cx = {| count := 1; freed := false; weak := None |}) \/ (x <> o /\ nth_error (cells s) x = Some cx)).
  { intros x cx E. destruct (Nat.eq_dec x o) as [->|Hne]; [left; rewrite set_nth_eq in E by exact Hl; injection E as <-; auto|right].
    rewrite set_nth_other in E by congruence. split; [exact Hne|]. assert (x < o + 1).
    { apply nth_error_lt in E. rewrite app_length in E. unfold o. cbn in E. lia. }
    rewrite nth_error_app1 in E by (unfold o in *; lia). exact E. }
  assert (Hold : forall x cx, nth_error (cells s) x = Some cx -> nth_error (set_nth (cells s ++ [{| count := 0; freed := false; weak := None |}]) o {| count := 0 + 1; freed := false; weak := None |}) x = Some cx /\ x <> o).
  { intros x cx E. pose proof (nth_error_lt _ _ _ E) as Hx. assert (x <> o) by (unfold o; lia). split; [|assumption]. rewrite set_nth_other by congruence. rewrite nth_error_app1 by exact Hx. exact E. }
  assert (Heq : forall o', o' <> o -> (if Nat.eqb o' o then 1 else 0) = 0) by (intros o' Hne; rewrite (proj2 (Nat.eqb_neq _ _) Hne); reflexivity).
  constructor; cbn [cells flags handles weaks destroyed set_cell occ one].
  - intros o' c' E'. apply Hcases in E'. destruct E' as [(-> & ->)|(Hne & E')]; [rewrite Nat.eqb_refl; cbn [count]; lia|]. rewrite (Heq o' Hne). apply (Hcount o' c' E').
  - intros o' c' E'. apply Hcases in E'. destruct E' as [(-> & ->)|(Hne & E')]; [rewrite Nat.eqb_refl; cbn [freed]; split; [discriminate|lia]|]. rewrite (Heq o' Hne). apply (Hfreed o' c' E').
  - intros o' Hp. rewrite set_nth_length, app_length. cbn. destruct (Nat.eq_dec o' o) as [->|Hne]; [unfold o; lia|]. rewrite (Heq o' Hne) in Hp. assert (o' < List.length (cells s)) by (apply Hmade; lia). lia.
  - intros o' c' f E' Ew. apply Hcases in E'. destruct E' as [(-> & ->)|(Hne & E')]; [discriminate|]. eapply Hflag; eassumption.
  - intros o1 o2 c1 c2 f E1 E2 W1 W2. apply Hcases in E1, E2. destruct E1 as [(-> & ->)|(N1 & E1)]; [discriminate|]. destruct E2 as [(-> & ->)|(N2 & E2)]; [discriminate|]. eapply Hown; eassumption.
  - intros w o' f E'. destruct (Hweak w o' f E') as (c' & E1 & E2). apply Hold in E1. exists c'. tauto.
  - exact Hnodup.
  - intros o'. rewrite Hdest. split.
    + intros (c' & E1 & E2). apply Hold in E1. exists c'. tauto.
    + intros (c' & E1 & E2). apply Hcases in E1. destruct E1 as [(-> & ->)|(N1 & E1)]; [discriminate|]. eauto.
  - cbn [List.length]. lia.
Qed.

Lemma handle_nth : forall s i p, nth_error (handles s) i = Some p -> handle s i = p.
Proof. intros s i p H. unfold handle. rewrite H. destruct p; reflexivity. Qed.
Definition roomy (s : store) : Prop := (N.of_nat (List.length (handles s) + 5) < 2 ^ 32)%N.

(** after the reference is taken: swap it in and release the old one *)
Lemma swap_in : forall s i p ex, i < List.length (handles s) -> inv s (p :: ex) ->
  exists s', match handle s i with Some o => release (set_handle s i p) o | None => Ok (set_handle s i p) end = Ok s' /\ inv s' ex /\
    List.length (handles s') = List.length (handles s) /\ List.length (weaks s') = List.length (weaks s).
Proof.
  intros s i p ex Hi H. destruct (lt_nth_error _ _ Hi) as (old & Eo). rewrite (handle_nth _ _ _ Eo). pose proof (inv_set_handle s i old p ex Eo H) as Hinv.
  destruct old as [o|].
  - destruct (release_ok _ _ _ Hinv) as (s' & E & I & Hh & Hw & _). exists s'. split; [exact E|]. split; [exact I|]. rewrite Hh, Hw. cbn. rewrite set_nth_length. auto.
  - eexists. split; [reflexivity|]. split; [now apply inv_drop_none|]. cbn. rewrite set_nth_length. auto.
Qed.
Lemma assign_ok : forall s i o, inv s [] -> roomy s -> i < List.length (handles s) -> 0 < occ o (handles s) ->
  exists s', assign_pointer s i (Some o) = Ok s' /\ inv s' [] /\ List.length (handles s') = List.length (handles s) /\ List.length (weaks s') = List.length (weaks s).
Proof.
  intros s i o H Hr Hi Ho. unfold assign_pointer. destruct (add_ref_ok s o [] H) as (s1 & E1 & I1 & Hh & Hw & _); [lia|unfold roomy in Hr; cbn [List.length]; lia|].
  rewrite E1. cbn [rbind]. cbv zeta. destruct (swap_in s1 i (Some o) []) as (s' & E & I & L1 & L2); [rewrite Hh; exact Hi|exact I1|].
  exists s'. split; [exact E|]. split; [exact I|]. rewrite L1, L2, Hh, Hw. auto.
Qed.
Lemma assign_none_ok : forall s i, inv s [] -> roomy s -> i < List.length (handles s) ->
  exists s', assign_pointer s i None = Ok s' /\ inv s' [] /\ List.length (handles s') = List.length (handles s) /\ List.length (weaks s') = List.length (weaks s).
Proof.
  intros s i H Hr Hi. unfold assign_pointer. cbn [rbind]. cbv zeta. apply swap_in; [exact Hi|].
  split_inv H. constructor; auto. cbn [List.length]. unfold roomy in Hr. lia.
Qed.
Lemma get_internal_ok : forall lazy s i, inv s [] -> roomy s -> i < List.length (handles s) ->
  exists p s', get_internal lazy s i = Ok (p, s') /\ inv s' [] /\ nth_error (handles s') i = Some p /\
    List.length (handles s') = List.length (handles s) /\ List.length (weaks s') = List.length (weaks s) /\
    (p = None -> lazy = false /\ nth_error (handles s) i = Some None).
Proof.
  intros lazy s i H Hr Hi. unfold get_internal. destruct (lt_nth_error _ _ Hi) as (old & Eo). rewrite (handle_nth _ _ _ Eo). destruct old as [o|].
  - exists (Some o), s. split; [reflexivity|]. split; [exact H|]. repeat split; auto; discriminate.
  - destruct lazy.
    + destruct (new_ok s [] H) as (s2 & E2 & I2 & Hh & Hw); [unfold roomy in Hr; cbn [List.length]; lia|].
      destruct (new_object s None) as [o s1] eqn:En. assert (o = List.length (cells s)) as -> by (unfold new_object in En; congruence).
      cbn [snd] in E2. rewrite E2. cbn [rbind]. do 2 eexists. split; [reflexivity|].
      assert (Eo' : nth_error (handles s2) i = Some None) by (rewrite Hh; exact Eo).
      split; [apply inv_drop_none; eapply inv_set_handle; [exact Eo'|exact I2]|].
      cbn [set_handle handles weaks]. rewrite set_nth_length. rewrite set_nth_eq by (rewrite Hh; exact Hi). rewrite Hh, Hw. repeat split; auto; discriminate.
    + exists None, s. split; [reflexivity|]. split; [exact H|]. repeat split; auto.
Qed.

Lemma set_weak_ok : forall s w r, inv s [] -> (forall o f, r = Some (o, Some f) -> exists c, nth_error (cells s) o = Some c /\ weak c = Some f) -> inv (set_weak s w r) [].
Proof.
  intros s w r H Hr. split_inv H. constructor; cbn [set_weak cells flags handles weaks destroyed]; auto.
  intros w' o f E. destruct (Nat.eq_dec w' w) as [->|Hne].
  - assert (w < List.length (weaks s)) by (apply nth_error_lt in E; now rewrite set_nth_length in E). rewrite set_nth_eq in E by assumption. injection E as ->. now apply Hr.
  - rewrite set_nth_other in E by congruence. eapply Hweak; exact E.
Qed.
Lemma get_weak_ok : forall s o, inv s [] -> 0 < occ o (handles s) ->
  exists f s', get_weak s o = Ok (f, s') /\ inv s' [] /\ handles s' = handles s /\ weaks s' = weaks s /\ exists c, nth_error (cells s') o = Some c /\ weak c = Some f.
Proof.
  intros s o H Hp. assert (Ho : o < List.length (cells s)) by (apply (inv_made _ _ H); lia). destruct (lt_nth_error _ _ Ho) as (c & Ec).
  unfold get_weak. rewrite Ec. assert (Hf : freed c = false).
  { destruct (freed c) eqn:E; [|reflexivity]. apply (inv_freed _ _ H o c Ec) in E. lia. }
  rewrite Hf. destruct (weak c) as [f|] eqn:Ew; [exists f, s; split; [reflexivity|split; [exact H|split; [reflexivity|split; [reflexivity|eauto]]]]|].
  do 2 eexists. split; [reflexivity|]. cbn [handles weaks cells]. split; [|split; [reflexivity|split; [reflexivity|]]].
  - split_inv H. set (f := List.length (flags s)).
    assert (Hcases : forall x cx, nth_error (set_nth (cells s) o {| count := count c; freed := false; weak := Some f |}) x = Some cx ->
      (x = o /\ cx = {| count := count c; freed := false; weak := Some f |}) \/ (x <> o /\ nth_error (cells s) x = Some cx)).
    { intros x cx E. destruct (Nat.eq_dec x o) as [->|Hne]; [left; rewrite set_nth_eq in E by exact Ho; injection E as <-; auto|right]. rewrite set_nth_other in E by congruence. auto. }
    assert (Hlt : forall x cx g, nth_error (cells s) x = Some cx -> weak cx = Some g -> g < f).
    { intros x cx g E1 E2. pose proof (Hflag x cx g E1 E2) as Hg. apply nth_error_lt in Hg. exact Hg. }
    constructor; cbn [cells flags handles weaks destroyed].
    + intros o' c' E'. apply Hcases in E'. destruct E' as [(-> & ->)|(Hne & E')]; [apply (Hcount o c Ec)|apply (Hcount o' c' E')].
    + intros o' c' E'. apply Hcases in E'. destruct E' as [(-> & ->)|(Hne & E')]; [rewrite <- (Hfreed o c Ec); cbn [freed]; rewrite Hf; reflexivity|apply (Hfreed o' c' E')].
    + intros o' Hp'. rewrite set_nth_length. now apply Hmade.
    + intros o' c' g E' Eg. apply Hcases in E'. destruct E' as [(-> & ->)|(Hne & E')].
      * cbn [weak freed] in *. injection Eg as <-. rewrite nth_error_app2 by (unfold f; lia). unfold f. rewrite Nat.sub_diag. reflexivity.
      * rewrite nth_error_app1 by (apply (Hlt o' c' g E' Eg)). eapply Hflag; eassumption.
    + intros o1 o2 c1 c2 g E1 E2 W1 W2. apply Hcases in E1, E2. destruct E1 as [(-> & ->)|(N1 & E1)], E2 as [(-> & ->)|(N2 & E2)].
      * reflexivity.
      * cbn in W1. injection W1 as <-. pose proof (Hlt _ _ _ E2 W2). lia.
      * cbn in W2. injection W2 as <-. pose proof (Hlt _ _ _ E1 W1). lia.
      * eapply Hown; eassumption.
    + intros w o' g E'. destruct (Hweak w o' g E') as (c' & E1 & E2). destruct (Nat.eq_dec o' o) as [->|Hne]; [congruence|].
      exists c'. rewrite set_nth_other by congruence. auto.
    + exact Hnodup.
    + intros o'. rewrite Hdest. destruct (Nat.eq_dec o' o) as [->|Hne].
      * rewrite set_nth_eq by exact Ho. split; intros (c' & E1 & E2); [congruence|]. injection E1 as <-. discriminate.
      * rewrite set_nth_other by congruence. reflexivity.
    + exact Hsmall.
  - rewrite set_nth_eq by exact Ho. eexists. split; reflexivity.
Qed.

Definition whole (s : store) : Prop := inv s [] /\ roomy s.

Ltac fin := split; [first [assumption|reflexivity]|split; [split; [assumption|first [assumption|match goal with H : forall s', _ -> roomy s' |- _ => apply H; congruence end]]|split; first [assumption|reflexivity|congruence]]].
Lemma perform_ok : forall lazy s a, whole s -> sensible lazy s a ->
  exists s', perform lazy s a = Ok s' /\ whole s' /\ List.length (handles s') = List.length (handles s) /\ List.length (weaks s') = List.length (weaks s).
Proof.
  intros lazy s a (H & Hr) Hs.
  assert (Hroom : forall s', List.length (handles s') = List.length (handles s) -> roomy s') by (intros s' E; unfold roomy in *; rewrite E; exact Hr).
  destruct a as [i|i j|i j|i|i j|w i|w|i w|i j|i j]; cbn [perform sensible] in *.
  - destruct (new_ok s [] H) as (s2 & E2 & I2 & Hh & Hw); [unfold roomy in Hr; cbn [List.length]; lia|].
    destruct (new_object s None) as [o s1] eqn:En. assert (o = List.length (cells s)) as -> by (unfold new_object in En; congruence). cbn [snd] in E2.
    unfold assign_pointer. rewrite E2. cbn [rbind]. cbv zeta. destruct (swap_in s2 i (Some (List.length (cells s))) []) as (s' & E & I & L1 & L2); [rewrite Hh; exact Hs|exact I2|].
    exists s'. rewrite L1, L2, Hh, Hw. fin.
  - destruct Hs as (Hi & Hj). destruct (get_internal_ok lazy s j H Hr Hj) as (p & s1 & E1 & I1 & Hn & L1 & L2 & _). rewrite E1. cbn [rbind]. destruct p as [o|].
    + destruct (assign_ok s1 i o) as (s' & E & I & M1 & M2); [exact I1|now apply Hroom|rewrite L1; exact Hi|eapply occ_ge; exact Hn|].
      exists s'. rewrite M1, M2. fin.
    + destruct (assign_none_ok s1 i) as (s' & E & I & M1 & M2); [exact I1|now apply Hroom|rewrite L1; exact Hi|].
      exists s'. rewrite M1, M2. fin.
  - destruct Hs as (Hi & Hj & Hne & Hnone). rewrite (handle_nth _ _ _ Hnone). rewrite (proj2 (Nat.eqb_neq _ _) Hne). cbv zeta.
    destruct (lt_nth_error _ _ Hj) as (p & Ep). rewrite (handle_nth _ _ _ Ep).
    eexists. split; [reflexivity|]. cbn [set_handle handles weaks]. rewrite !set_nth_length. split; [|auto]. split; [|apply Hroom; cbn; now rewrite !set_nth_length].
    assert (Ho : forall o, occ o (handles (set_handle (set_handle s i p) j None)) = occ o (handles s)).
    { intros o. cbn [set_handle handles]. pose proof (occ_set o (handles s) i None p Hnone) as H1.
      assert (Ep' : nth_error (set_nth (handles s) i p) j = Some p) by (rewrite set_nth_other by congruence; exact Ep).
      pose proof (occ_set o (set_nth (handles s) i p) j p None Ep') as H2. cbn [one] in H1, H2. lia. }
    split_inv H. constructor; auto.
    + intros. rewrite Ho. auto.
    + intros. rewrite Ho. auto.
    + intros o. rewrite Ho. auto.
    + cbn [set_handle handles]. rewrite !set_nth_length. exact Hsmall.
  - destruct (lt_nth_error _ _ Hs) as (p & Ep). rewrite (handle_nth _ _ _ Ep). destruct p as [o|].
    + assert (I0 : inv s [None]).
      { split_inv H. constructor; auto. cbn [List.length]. unfold roomy in Hr. lia. }
      pose proof (inv_set_handle s i (Some o) None [] Ep I0) as I1. destruct (release_ok _ _ _ I1) as (s' & E & I & Hh & Hw & _).
      exists s'. assert (Hl : List.length (handles s') = List.length (handles s)) by (rewrite Hh; cbn; apply set_nth_length). rewrite Hw, Hl. fin.
    + exists s. fin.
  - destruct Hs as (Hi & Hj). destruct (lt_nth_error _ _ Hi) as (p & Ep). destruct (lt_nth_error _ _ Hj) as (q & Eq). rewrite (handle_nth _ _ _ Ep), (handle_nth _ _ _ Eq). cbv zeta.
    eexists. split; [reflexivity|]. cbn [set_handle handles weaks]. rewrite !set_nth_length. split; [|auto]. split; [|apply Hroom; cbn; now rewrite !set_nth_length].
    assert (Ho : forall o, occ o (handles (set_handle (set_handle s i q) j p)) = occ o (handles s)).
    { intros o. cbn [set_handle handles]. pose proof (occ_set o (handles s) i p q Ep) as H1. destruct (Nat.eq_dec i j) as [->|Hne].
      - assert (p = q) by congruence. subst q. assert (Ep' : nth_error (set_nth (handles s) j p) j = Some p) by (apply set_nth_eq; exact Hj).
        pose proof (occ_set o (set_nth (handles s) j p) j p p Ep') as H2. lia.
      - assert (Eq' : nth_error (set_nth (handles s) i q) j = Some q) by (rewrite set_nth_other by congruence; exact Eq).
        pose proof (occ_set o (set_nth (handles s) i q) j q p Eq') as H2. lia. }
    split_inv H. constructor; auto.
    + intros. rewrite Ho. auto.
    + intros. rewrite Ho. auto.
    + intros o. rewrite Ho. auto.
    + cbn [set_handle handles]. rewrite !set_nth_length. exact Hsmall.
  - destruct Hs as (Hw & Hi & Hlazy). destruct (get_internal_ok lazy s i H Hr Hi) as (p & s1 & E1 & I1 & Hn & L1 & L2 & Hnone). rewrite E1. cbn [rbind].
    destruct p as [o|]; [|exfalso; destruct (Hnone eq_refl) as (Hl & Hh); destruct Hlazy as [Hz|(o & Hz)]; congruence].
    destruct (get_weak_ok s1 o I1) as (f & s2 & E2 & I2 & Hh2 & Hw2 & Hc); [eapply occ_ge; exact Hn|]. rewrite E2. cbn [rbind].
    eexists. split; [reflexivity|]. split; [split|].
    + apply set_weak_ok; [exact I2|]. intros o' f' E. injection E as <- <-. exact Hc.
    + apply Hroom. cbn. congruence.
    + cbn [set_weak handles weaks]. rewrite set_nth_length, Hh2, Hw2. auto.
  - destruct (lt_nth_error _ _ Hs) as (r & Er). rewrite Er. destruct r as [[o f]|].
    + eexists. split; [reflexivity|]. split; [split; [|now apply Hroom]|cbn [set_weak handles weaks]; rewrite set_nth_length; auto].
      apply set_weak_ok; [exact H|]. intros o' f' E. discriminate.
    + exists s. fin.
  - destruct Hs as (Hi & Hw). destruct (is_active s w) eqn:Ea; [|exists s; fin].
    unfold is_active in Ea. destruct (nth_error (weaks s) w) as [[[o [f|]]|]|] eqn:Ew; try discriminate.
    destruct (inv_weak _ _ H w o f Ew) as (c & Ec & Efc). pose proof (inv_flag _ _ H o c f Ec Efc) as Hfl.
    assert (Hf : freed c = false).
    { rewrite (nth_error_nth _ _ _ Hfl) in Ea. destruct (freed c); [discriminate|reflexivity]. }
    assert (Hocc : 0 < occ o (handles s)).
    { destruct (occ o (handles s)) eqn:E; [|lia]. assert (freed c = true) by (apply (inv_freed _ _ H o c Ec); rewrite E; reflexivity). congruence. }
    destruct (assign_ok s i o H Hr Hi Hocc) as (s' & E & I & M1 & M2). exists s'. rewrite M1, M2. fin.
  - destruct Hs.
  - destruct Hs.
Qed.

Lemma inv_right : forall s, inv s [] -> lifetimes_right s.
Proof.
  intros s H. assert (Hheld : forall o, held s o <-> 0 < occ o (handles s)) by (intros o; symmetry; apply occ_pos).
  unfold lifetimes_right, made, was_destroyed. split; [|split; [|split]].
  - intros o Ho. apply Hheld in Ho. apply (inv_made _ _ H). lia.
  - intros o Ho. rewrite (inv_dest _ _ H), Hheld. destruct (lt_nth_error _ _ Ho) as (c & Ec). split.
    + intros (c' & E1 & E2). rewrite (inv_freed _ _ H o c' E1) in E2. lia.
    + intros Hn. exists c. split; [exact Ec|]. apply (inv_freed _ _ H o c Ec). cbn [occ]. lia.
  - apply (inv_nodup _ _ H).
  - intros w o (f & Ew). destruct (inv_weak _ _ H w o f Ew) as (c & Ec & Efc). split; [eapply nth_error_lt; exact Ec|].
    unfold is_active. rewrite Ew. rewrite (nth_error_nth _ _ _ (inv_flag _ _ H o c f Ec Efc)). rewrite Hheld.
    pose proof (inv_freed _ _ H o c Ec) as Hf. cbn [occ] in Hf. destruct (freed c); cbn [negb]; split; intros; try discriminate; try reflexivity; try lia.
Qed.

Lemma empty_inv : forall n m, (N.of_nat n + 5 < 2 ^ 32)%N -> whole (empty_store n m).
Proof.
  intros n m Hn. assert (Hz : forall o, occ o (repeat None n) = 0) by (intros o; induction n as [|k IH]; [reflexivity|]; cbn; apply IH; lia).
  split; [|unfold roomy, empty_store; cbn [handles]; rewrite repeat_length; lia].
  constructor; cbn [empty_store cells flags handles weaks destroyed].
  - intros [|o] c E; discriminate.
  - intros [|o] c E; discriminate.
  - intros o. rewrite Hz. cbn. lia.
  - intros [|o] c f E; discriminate.
  - intros [|o] o' c c' f E; discriminate.
  - intros w o f E. assert (Hw : nth_error (repeat (@None (nat * option nat)) m) w = Some (Some (o, Some f))) by exact E. apply nth_error_In, repeat_spec in Hw. discriminate.
  - constructor.
  - intros o. split; [intros []|]. intros (c & E & _). destruct o; discriminate.
  - rewrite repeat_length. cbn [List.length]. lia.
Qed.

Lemma history_ok : forall lazy l s, whole s -> history lazy s l -> exists s', perform_all lazy s l = Ok s' /\ whole s'.
Proof.
  intros lazy l. induction l as [|a l IH]; intros s Hw H; [exists s; auto|]. inversion H as [|? ? ? Hs Hn]; subst.
  destruct (perform_ok lazy s a Hw Hs) as (s1 & E & Hw1 & _). cbn [perform_all]. rewrite E. cbn [rbind]. apply IH; [exact Hw1|]. now apply Hn.
Qed.

(** ** threads *)
Lemma owned_set : forall l t x y, nth_error l t = Some x -> all_owned (set_nth l t y) + owned x = all_owned l + owned y.
Proof.
  induction l as [|a l IH]; intros [|t] x y H; cbn in *; try discriminate.
  - injection H as ->. lia.
  - specialize (IH t x y H). lia.
Qed.
Lemma owned_le : forall l t x, nth_error l t = Some x -> owned x <= all_owned l.
Proof. induction l as [|a l IH]; intros [|t] x H; cbn in *; try discriminate; [injection H as ->; lia|]. specialize (IH t x H). lia. Qed.

Definition busy (p : place) : nat := match p with PDestroy | PFree => 1 | _ => 0 end.
Fixpoint all_busy (l : list thread) : nat := match l with [] => 0 | t :: r => busy (place_of t) + all_busy r end.
Lemma busy_set : forall l t x y, nth_error l t = Some x -> all_busy (set_nth l t y) + busy (place_of x) = all_busy l + busy (place_of y).
Proof.
  induction l as [|a l IH]; intros [|t] x y H; cbn in *; try discriminate.
  - injection H as ->. lia.
  - specialize (IH t x y H). lia.
Qed.
Lemma busy_le : forall l t x, nth_error l t = Some x -> busy (place_of x) <= all_busy l.
Proof. induction l as [|a l IH]; intros [|t] x H; cbn in *; try discriminate; [injection H as ->; lia|]. specialize (IH t x H). lia. Qed.

(** as long as nobody locks without a handle *)
Record safe (s : shared) : Prop := {
  safe_total : total s = N.of_nat (all_owned (threads s));
  safe_phase : all_busy (threads s) + deletions s = if all_owned (threads s) =? 0 then 1 else 0;
  safe_gone : gone s = true <-> deletions s = 1;
  safe_active : active s = true -> gone s = false;
  safe_active2 : all_owned (threads s) <> 0 -> active s = true;
  safe_told : forall t x, nth_error (threads s) t = Some x -> place_of x = PFree -> active s = false;
  safe_lock : forall t x, nth_error (threads s) t = Some x -> place_of x = PLock -> owned x > 0
}.
Definition fits (n : nat) : Prop := (N.of_nat n < 2 ^ 32 - 1)%N.

Lemma lock_set : forall l t y, (forall u x, nth_error l u = Some x -> place_of x = PLock -> owned x > 0) -> (place_of y = PLock -> owned y > 0) ->
  forall u x, nth_error (set_nth l t y) u = Some x -> place_of x = PLock -> owned x > 0.
Proof.
  intros l t y H Hy u x E. destruct (Nat.eq_dec u t) as [->|Hne].
  - assert (t < List.length l) by (apply nth_error_lt in E; now rewrite set_nth_length in E). rewrite set_nth_eq in E by assumption. injection E as <-. exact Hy.
  - rewrite set_nth_other in E by congruence. eauto.
Qed.

Lemma told_set : forall l t y b, (forall u x, nth_error l u = Some x -> place_of x = PFree -> b = false) -> (place_of y = PFree -> b = false) ->
  forall u x, nth_error (set_nth l t y) u = Some x -> place_of x = PFree -> b = false.
Proof.
  intros l t y b H Hy u x E. destruct (Nat.eq_dec u t) as [->|Hne].
  - assert (t < List.length l) by (apply nth_error_lt in E; now rewrite set_nth_length in E). rewrite set_nth_eq in E by assumption. injection E as <-. exact Hy.
  - rewrite set_nth_other in E by congruence. eauto.
Qed.

Lemma take_step_safe : forall s t a, safe s -> fits (all_owned (threads s)) -> careful s t a ->
  (exists s', take_step s t a = Ok s' /\ safe s') \/ take_step s t a = Throw ENotModelled.
Proof.
  intros s t a H Hf Hc. destruct H as [Ht Hp Hg Ha Ha2 Htold Hl]. unfold take_step. destruct (nth_error (threads s) t) as [x|] eqn:Ex; [|now right].
  assert (Htl : t < List.length (threads s)) by (eapply nth_error_lt; exact Ex).
  pose proof (owned_le _ _ _ Ex) as Hox. pose proof (busy_le _ _ _ Ex) as Hbx.
  assert (Halive : all_owned (threads s) <> 0 -> gone s = false) by (intros Hn; apply Ha, Ha2, Hn).
  assert (Hmodadd : ((total s + 1) mod 2 ^ 32 = N.of_nat (S (all_owned (threads s))))%N).
  { rewrite Ht. rewrite N.mod_small; unfold fits in Hf; change (2 ^ 32 - 1)%N with 4294967295%N in Hf; change (2 ^ 32)%N with 4294967296%N; lia. }
  assert (Hmodsub : all_owned (threads s) <> 0 -> ((total s + (2 ^ 32 - 1)) mod 2 ^ 32 = N.of_nat (all_owned (threads s) - 1))%N).
  { intros Hn. rewrite Ht. replace (N.of_nat (all_owned (threads s)) + (2 ^ 32 - 1))%N with (N.of_nat (all_owned (threads s) - 1) + 1 * 2 ^ 32)%N.
    - rewrite N.mod_add by discriminate. apply N.mod_small. unfold fits in Hf. lia.
    - change (2 ^ 32 - 1)%N with 4294967295%N. change (2 ^ 32)%N with 4294967296%N. lia. }
  destruct a as [| |u| |]; destruct (place_of x) eqn:Epl; try (now right).
  - (* copy *) destruct (owned x) as [|k] eqn:Eo; [now right|]. rewrite Halive by lia. left. eexists. split; [reflexivity|].
    set (y := {| owned := S (S k); place_of := PIdle |}). pose proof (owned_set _ t x y Ex) as H1. pose proof (busy_set _ t x y Ex) as H2. rewrite Epl in H2. cbn [busy y place_of owned] in *.
    constructor; cbn [with_thread with_total total active gone deletions threads].
    + rewrite Hmodadd. f_equal. lia.
    + replace (all_busy (set_nth (threads s) t y)) with (all_busy (threads s)) by lia. rewrite Hp.
      destruct (all_owned (threads s) =? 0) eqn:E1; destruct (all_owned (set_nth (threads s) t y) =? 0) eqn:E2; lia.
    + exact Hg.
    + exact Ha.
    + intros _. apply Ha2. lia.
    + apply told_set; [solve [exact Htold|auto]|try discriminate].
    + apply lock_set; [exact Hl|]. discriminate.
  - (* drop *) destruct (owned x) as [|k] eqn:Eo; [now right|]. rewrite Halive by lia. left. eexists. split; [reflexivity|]. rewrite Hmodsub by lia.
    set (y := {| owned := k; place_of := if (N.of_nat (all_owned (threads s) - 1) =? 0)%N then PDestroy else PIdle |}).
    pose proof (owned_set _ t x y Ex) as H1. pose proof (busy_set _ t x y Ex) as H2. rewrite Epl in H2. cbn [busy y place_of owned] in *.
    assert (Hdel : deletions s = 0 /\ all_busy (threads s) = 0) by (destruct (all_owned (threads s) =? 0) eqn:E; lia).
    constructor; cbn [with_thread with_total total active gone deletions threads].
    + f_equal. lia.
    + destruct (N.of_nat (all_owned (threads s) - 1) =? 0)%N eqn:E; cbn [busy] in H2.
      * assert (all_owned (set_nth (threads s) t y) = 0) as -> by lia. cbn. lia.
      * destruct (all_owned (set_nth (threads s) t y) =? 0) eqn:E2; lia.
    + exact Hg.
    + exact Ha.
    + intros _. apply Ha2. lia.
    + apply told_set; [exact Htold|]. cbn [y place_of]. destruct (N.of_nat (all_owned (threads s) - 1) =? 0)%N; discriminate.
    + apply lock_set; [exact Hl|]. cbn [y place_of owned]. destruct (N.of_nat (all_owned (threads s) - 1) =? 0)%N; discriminate.
  - (* give *) destruct (owned x) as [|k] eqn:Eo; [now right|]. set (y := {| owned := k; place_of := PIdle |}). cbn [with_thread threads].
    destruct (nth_error (set_nth (threads s) t y) u) as [z|] eqn:Ez; [|now right]. left. eexists. split; [reflexivity|].
    set (z' := {| owned := S (owned z); place_of := place_of z |}).
    pose proof (owned_set _ t x y Ex) as H1. pose proof (busy_set _ t x y Ex) as H2. rewrite Epl in H2.
    pose proof (owned_set _ u z z' Ez) as H3. pose proof (busy_set _ u z z' Ez) as H4. cbn [busy y z' place_of owned] in *.
    assert (Hsum : all_owned (set_nth (set_nth (threads s) t y) u z') = all_owned (threads s)) by lia.
    constructor; cbn [with_thread total active gone deletions threads]; rewrite ?Hsum; auto.
    + replace (all_busy (set_nth (set_nth (threads s) t y) u z')) with (all_busy (threads s)) by lia. exact Hp.
    + assert (Htold1 : forall v w, nth_error (set_nth (threads s) t y) v = Some w -> place_of w = PFree -> active s = false) by (apply told_set; [exact Htold|discriminate]).
      apply told_set; [exact Htold1|]. intros Hz. exact (Htold1 u z Ez Hz).
    + apply lock_set; [apply lock_set; [exact Hl|discriminate]|]. intros _. cbn. lia.
  - (* check *) cbn [careful] in Hc. destruct Hc as (x' & Ex' & Hown). assert (x' = x) by congruence. subst x'. destruct (active s) eqn:Eact.
    + left. eexists. split; [reflexivity|]. set (y := {| owned := owned x; place_of := PLock |}).
      pose proof (owned_set _ t x y Ex) as H1. pose proof (busy_set _ t x y Ex) as H2. rewrite Epl in H2. cbn [busy y place_of owned] in *.
      assert (Hsum : all_owned (set_nth (threads s) t y) = all_owned (threads s)) by lia.
      constructor; cbn [with_thread total active gone deletions threads]; rewrite ?Hsum; auto.
      * replace (all_busy (set_nth (threads s) t y)) with (all_busy (threads s)) by lia. exact Hp.
      * rewrite Eact. apply told_set; [exact Htold|discriminate].
      * apply lock_set; [exact Hl|]. intros _. exact Hown.
    + left. exists s. split; [reflexivity|]. constructor; auto; rewrite ?Eact; auto; discriminate.
  - (* destroy *) cbn [busy] in Hbx. assert (Hz : all_owned (threads s) = 0 /\ deletions s = 0 /\ all_busy (threads s) = 1) by (destruct (all_owned (threads s) =? 0) eqn:E; lia).
    destruct Hz as (Hz & Hd & Hb). assert (Egone : gone s = false) by (destruct (gone s); [assert (deletions s = 1) by (apply Hg; reflexivity); lia|reflexivity]). rewrite Egone.
    left. eexists. split; [reflexivity|]. set (y := {| owned := owned x; place_of := PFree |}).
    pose proof (owned_set _ t x y Ex) as H1. pose proof (busy_set _ t x y Ex) as H2. rewrite Epl in H2. cbn [busy y place_of owned] in *.
    assert (Hsum : all_owned (set_nth (threads s) t y) = 0) by lia.
    constructor; cbn [with_thread total active gone deletions threads]; rewrite ?Hsum.
    + rewrite Ht, Hz. reflexivity.
    + replace (all_busy (set_nth (threads s) t y)) with 1 by lia. rewrite Hd. reflexivity.
    + rewrite <- Hg, Egone. tauto.
    + discriminate.
    + lia.
    + reflexivity.
    + apply lock_set; [exact Hl|discriminate].
  - (* free *) cbn [busy] in Hbx. assert (Hz : all_owned (threads s) = 0 /\ deletions s = 0 /\ all_busy (threads s) = 1) by (destruct (all_owned (threads s) =? 0) eqn:E; lia).
    destruct Hz as (Hz & Hd & Hb). assert (Egone : gone s = false) by (destruct (gone s); [assert (deletions s = 1) by (apply Hg; reflexivity); lia|reflexivity]). rewrite Egone.
    left. eexists. split; [reflexivity|]. set (y := {| owned := owned x; place_of := PIdle |}).
    pose proof (owned_set _ t x y Ex) as H1. pose proof (busy_set _ t x y Ex) as H2. rewrite Epl in H2. cbn [busy y place_of owned] in *.
    assert (Hsum : all_owned (set_nth (threads s) t y) = 0) by lia.
    constructor; cbn [with_thread total active gone deletions threads]; rewrite ?Hsum.
    + rewrite Ht, Hz. reflexivity.
    + replace (all_busy (set_nth (threads s) t y)) with 0 by lia. rewrite Hd. reflexivity.
    + rewrite Hd. tauto.
    + intros Hact. rewrite (Htold t x Ex Epl) in Hact. discriminate.
    + lia.
    + apply told_set; [solve [exact Htold|auto]|try discriminate].
    + apply lock_set; [exact Hl|discriminate].
  - (* lock *) assert (Hown : owned x > 0) by (eapply Hl; [exact Ex|exact Epl]). rewrite Halive by lia. left. eexists. split; [reflexivity|].
    set (y := {| owned := S (owned x); place_of := PIdle |}). pose proof (owned_set _ t x y Ex) as H1. pose proof (busy_set _ t x y Ex) as H2. rewrite Epl in H2. cbn [busy y place_of owned] in *.
    constructor; cbn [with_thread with_total total active gone deletions threads].
    + rewrite Hmodadd. f_equal. lia.
    + replace (all_busy (set_nth (threads s) t y)) with (all_busy (threads s)) by lia. rewrite Hp.
      destruct (all_owned (threads s) =? 0) eqn:E1; destruct (all_owned (set_nth (threads s) t y) =? 0) eqn:E2; lia.
    + exact Hg.
    + exact Ha.
    + intros _. apply Ha2. lia.
    + apply told_set; [solve [exact Htold|auto]|try discriminate].
    + apply lock_set; [exact Hl|]. discriminate.
Qed.

Lemma take_step_owned : forall s t a s', take_step s t a = Ok s' -> all_owned (threads s') <= S (all_owned (threads s)).
Proof.
  intros s t a s' H. unfold take_step in H. destruct (nth_error (threads s) t) as [x|] eqn:Ex; [|discriminate].
  destruct a as [| |u| |]; destruct (place_of x) eqn:Epl; try discriminate.
  - destruct (owned x) as [|k] eqn:Eo; [discriminate|]. destruct (gone s); [discriminate|]. apply Ok_inj in H. subst s'. cbn [with_thread with_total threads].
    pose proof (owned_set _ t x {| owned := S (S k); place_of := PIdle |} Ex) as H1. cbn [owned] in H1. lia.
  - destruct (owned x) as [|k] eqn:Eo; [discriminate|]. destruct (gone s); [discriminate|]. apply Ok_inj in H. subst s'. cbn [with_thread with_total threads].
    match goal with |- all_owned (set_nth _ _ ?y) <= _ => pose proof (owned_set _ t x y Ex) as H1 end. cbn [owned] in H1. lia.
  - destruct (owned x) as [|k] eqn:Eo; [discriminate|]. cbn [with_thread threads] in H.
    destruct (nth_error _ u) as [z|] eqn:Ez; [|discriminate]. apply Ok_inj in H. subst s'. cbn [with_thread threads].
    pose proof (owned_set _ t x {| owned := k; place_of := PIdle |} Ex) as H1. pose proof (owned_set _ u z {| owned := S (owned z); place_of := place_of z |} Ez) as H2. cbn [owned] in *. lia.
  - destruct (active s); apply Ok_inj in H; subst s'; [|lia]. cbn [with_thread threads]. pose proof (owned_set _ t x {| owned := owned x; place_of := PLock |} Ex) as H1. cbn [owned] in *. lia.
  - destruct (gone s); [discriminate|]. apply Ok_inj in H. subst s'. cbn [with_thread threads]. pose proof (owned_set _ t x {| owned := owned x; place_of := PFree |} Ex) as H1. cbn [owned] in *. lia.
  - destruct (gone s); [discriminate|]. apply Ok_inj in H. subst s'. cbn [with_thread threads]. pose proof (owned_set _ t x {| owned := owned x; place_of := PIdle |} Ex) as H1. cbn [owned] in *. lia.
  - destruct (gone s); [discriminate|]. apply Ok_inj in H. subst s'. cbn [with_thread with_total threads]. pose proof (owned_set _ t x {| owned := S (owned x); place_of := PIdle |} Ex) as H1. cbn [owned] in *. lia.
Qed.

Lemma run_safe : forall l s, safe s -> fits (all_owned (threads s) + List.length l) -> schedule_ok s l ->
  (exists s', run_schedule s l = Ok s' /\ safe s') \/ run_schedule s l = Throw ENotModelled.
Proof.
  induction l as [|[t a] l IH]; intros s Hs Hf Hl; [left; exists s; auto|]. inversion Hl as [|? ? ? ? Hc Hn]; subst. cbn [run_schedule List.length] in *.
  destruct (take_step_safe s t a Hs) as [(s1 & E & Hs1)|E]; [unfold fits in *; lia|exact Hc| |rewrite E; right; reflexivity].
  rewrite E. cbn [rbind]. apply IH; [exact Hs1| |now apply Hn]. pose proof (take_step_owned _ _ _ _ E). unfold fits in *. lia.
Qed.

Lemma zeros : forall n, all_owned (repeat {| owned := 0; place_of := PIdle |} n) = 0 /\ all_busy (repeat {| owned := 0; place_of := PIdle |} n) = 0.
Proof. induction n as [|n IH]; [auto|]. cbn. exact IH. Qed.
Lemma first_safe : forall n, safe (first_state n).
Proof.
  intros n. destruct (zeros n) as (H1 & H2). constructor; cbn [first_state total active gone deletions threads all_owned all_busy owned place_of busy]; rewrite ?H1, ?H2; auto.
  - split; discriminate.
  - intros [|t] x E Ep; cbn in E; [injection E as <-; discriminate|]. apply nth_error_In, repeat_spec in E. subst. discriminate.
  - intros [|t] x E Ep; cbn in E; [injection E as <-; discriminate|]. apply nth_error_In, repeat_spec in E. subst. discriminate.
Qed.
Lemma idle_busy : forall l, (forall t x, nth_error l t = Some x -> place_of x = PIdle) -> all_busy l = 0.
Proof.
  induction l as [|a l IH]; intros H; [reflexivity|]. cbn. rewrite (H 0 a eq_refl), IH; [reflexivity|]. intros t x E. exact (H (S t) x E).
Qed.

(** what is destroyed stays destroyed *)
Definition later (s s' : store) : Prop := exists k, destroyed s' = k ++ destroyed s.
Lemma later_refl : forall s s', destroyed s' = destroyed s -> later s s'.
Proof. intros s s' H. exists []. exact H. Qed.
Lemma later_trans : forall a b c, later a b -> later b c -> later a c.
Proof. intros a b c (k & H) (k' & H'). exists (k' ++ k). rewrite H', H. apply app_assoc. Qed.
Lemma add_ref_later : forall s o s', add_ref s o = Ok s' -> later s s'.
Proof. intros s o s' H. unfold add_ref in H. destruct (nth_error _ _); [|discriminate]. destruct (freed _); [discriminate|]. apply Ok_inj in H. subst. now apply later_refl. Qed.
Lemma release_later : forall s o s', release s o = Ok s' -> later s s'.
Proof.
  intros s o s' H. unfold release in H. destruct (nth_error _ _); [|discriminate]. destruct (freed _); [discriminate|]. cbv zeta in H.
  match type of H with context [if ?b then _ else _] => destruct b end; apply Ok_inj in H; subst; [exists [o]; reflexivity|now apply later_refl].
Qed.
Lemma assign_later : forall s i p s', assign_pointer s i p = Ok s' -> later s s'.
Proof.
  intros s i p s' H. unfold assign_pointer in H. apply rbind_ok in H. destruct H as (s1 & E1 & H). cbv zeta in H.
  assert (L1 : later s s1) by (destruct p; [now apply add_ref_later in E1|apply Ok_inj in E1; subst; now apply later_refl]).
  apply (later_trans _ _ _ L1). destruct (handle s1 i).
  - apply release_later in H. destruct H as (k & H). exists k. exact H.
  - apply Ok_inj in H. subst. now apply later_refl.
Qed.
Lemma get_internal_later : forall lazy s i p s', get_internal lazy s i = Ok (p, s') -> later s s'.
Proof.
  intros lazy s i p s' H. unfold get_internal in H. destruct (handle s i); [injection H as _ <-; now apply later_refl|]. destruct lazy; [|injection H as _ <-; now apply later_refl].
  destruct (new_object s None) as [o s1] eqn:En. apply rbind_ok in H. destruct H as (s2 & E & H). injection H as _ <-. apply add_ref_later in E. destruct E as (k & E). exists k. cbn. rewrite E.
  unfold new_object in En. injection En as _ <-. reflexivity.
Qed.
Lemma perform_later : forall lazy s a s', perform lazy s a = Ok s' -> later s s'.
Proof.
  intros lazy s a s' H. destruct a as [i|i j|i j|i|i j|w i|w|i w|i j|i j]; cbn [perform] in H.
  - destruct (new_object s None) as [o s1] eqn:En. apply assign_later in H. unfold new_object in En. injection En as _ <-. exact H.
  - apply rbind_ok in H. destruct H as ((p, s1) & E & H). apply (later_trans _ s1); [eapply get_internal_later; exact E|eapply assign_later; exact H].
  - destruct (handle s i); [discriminate|]. destruct (Nat.eqb i j); [discriminate|]. apply Ok_inj in H. subst. now apply later_refl.
  - destruct (handle s i); [|apply Ok_inj in H; subst; now apply later_refl]. apply release_later in H. destruct H as (k & H). now exists k.
  - apply Ok_inj in H. subst. now apply later_refl.
  - apply rbind_ok in H. destruct H as ((p, s1) & E & H). apply (later_trans _ s1); [eapply get_internal_later; exact E|]. destruct p as [o|]; [|discriminate].
    apply rbind_ok in H. destruct H as ((f, s2) & E2 & H). apply Ok_inj in H. subst. unfold get_weak in E2. destruct (nth_error _ _); [|discriminate]. destruct (freed _); [discriminate|].
    destruct (weak _); injection E2 as _ <-; now apply later_refl.
  - destruct (nth_error _ _) as [[[o f]|]|]; apply Ok_inj in H; subst; now apply later_refl.
  - destruct (is_active s w); [|apply Ok_inj in H; subst; now apply later_refl]. destruct (nth_error _ _) as [[[o f]|]|]; try (apply Ok_inj in H; subst; now apply later_refl). eapply assign_later; exact H.
  - apply rbind_ok in H. destruct H as ((p, s1) & E & H). apply (later_trans _ s1); [eapply get_internal_later; exact E|]. destruct p as [o|]; [|discriminate].
    destruct (nth_error _ _); [|discriminate]. destruct (freed _); [discriminate|]. destruct (new_object s1 _) as [o' s2] eqn:En. apply assign_later in H. unfold new_object in En. injection En as _ <-. exact H.
  - destruct (handle s i); [|discriminate]. destruct (handle s j); [|discriminate]. destruct (nth_error _ _); [|discriminate]. destruct (nth_error _ _); [|discriminate]. destruct (_ || _)%bool; [discriminate|].
    apply Ok_inj in H. subst. now apply later_refl.
Qed.
Lemma perform_all_later : forall lazy l s s', perform_all lazy s l = Ok s' -> later s s'.
Proof.
  intros lazy l. induction l as [|a l IH]; intros s s' H; cbn [perform_all] in H; [apply Ok_inj in H; subst; now apply later_refl|].
  apply rbind_ok in H. destruct H as (s1 & E & H). apply (later_trans _ s1); [eapply perform_later; exact E|now apply IH].
Qed.
Lemma release_shape : forall s o s', release s o = Ok s' ->
  (destroyed s' = o :: destroyed s \/ destroyed s' = destroyed s) /\ handles s' = handles s /\ List.length (cells s') = List.length (cells s).
Proof.
  intros s o s' H. unfold release in H. destruct (nth_error (cells s) o) as [c|]; [|discriminate]. destruct (freed c); [discriminate|]. cbv zeta in H.
  match type of H with context [if ?b then _ else _] => destruct b end; apply Ok_inj in H; subst; cbn; rewrite set_nth_length; auto.
Qed.

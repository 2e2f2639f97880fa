(** References: the remembered targets, back references and hashes always agree with the meaning, for careful programs. *)
From Coq Require Import List Arith Bool Lia.
From Verif.Model Require Import Base References.
From Verif.Spec Require Import References.
Import ListNotations.

Lemma upd_eq : forall A (f : nat -> A) k v, upd f k v k = v.
Proof. intros A f k v. unfold upd. rewrite Nat.eqb_refl. reflexivity. Qed.
Lemma upd_neq : forall A (f : nat -> A) k v i, i <> k -> upd f k v i = f i.
Proof. intros A f k v i H. unfold upd. apply Nat.eqb_neq in H. rewrite H. reflexivity. Qed.

Definition dead (m : meaning) (o : nat) : Prop := o <= objects m /\ has m o = false /\ forall n, placed m n <> Some o.
Definition number_ok (m : meaning) (n : nat) : Prop := 1 <= n <= numbers m.

Record inv (s : state) (m : meaning) : Prop := {
  i_no : nobjs s = objects m; i_ne : nents s = numbers m; i_nr : nrefs s = references m;
  i_held : forall o, held (objs s o) = has m o;
  i_kept : forall n, kept (ents s n) = has_entry m n;
  i_tab : forall n, in_table (ents s n) = (1 <=? n) && (n <=? numbers m);
  i_ref : forall n, refers (ents s n) = placed m n;
  i_placed : forall n o, placed m n = Some o -> number_ok m n /\ o <> 0 /\ o <= objects m /\ entry (objs s o) = Some n;
  i_entry : forall o n, entry (objs s o) = Some n -> placed m n = Some o;
  i_key : forall n, has_entry m n = true -> number_ok m n;
  i_has : forall o, has m o = true -> o <= objects m;
  i_backup : forall r, backup (refs s r) = names m r;
  i_file : forall r, has_file (refs s r) = of_file m r;
  i_target : forall r o, target (refs s r) = Some o -> o = 0 \/ placed m (names m r) = Some o \/ (dead m o /\ of_file m r = true);
  i_own : forall r, of_file m r = false ->
            (pointed m r = true -> exists o, target (refs s r) = Some o /\ placed m (names m r) = Some o)
            /\ (pointed m r = false -> target (refs s r) = None);
  i_hash : forall r, hashed (refs s r) = 0 \/ hashed (refs s r) = names m r;
  i_pointed : forall r, pointed m r = true -> a_reference m r = true }.

Lemma inv_init : inv init nothing.
Proof.
  constructor; cbn; intros; try reflexivity; try discriminate; try (left; reflexivity).
  - symmetry. destruct n as [|n]; reflexivity.
  - apply Nat.eqb_eq in H. lia.
  - split; [discriminate|reflexivity].
Qed.

Section Inv.
Variable s : state.
Variable m : meaning.
Hypothesis I : inv s m.

Lemma number_of_some : forall o n, number_of m o = Some n <-> placed m n = Some o.
Proof.
  intros o n. unfold number_of. split.
  - intros H. apply find_some in H as [_ H]. destruct (placed m n) as [p|]; [|discriminate]. apply Nat.eqb_eq in H. congruence.
  - intros H. destruct (i_placed _ _ I _ _ H) as (Hn & _ & _ & He).
    destruct (find _ _) as [k|] eqn:E.
    + apply find_some in E as [_ E]. destruct (placed m k) as [p|] eqn:Ek; [|discriminate]. apply Nat.eqb_eq in E. subst p.
      destruct (i_placed _ _ I _ _ Ek) as (_ & _ & _ & He'). congruence.
    + assert (Hin : In n (seq 1 (numbers m))) by (apply in_seq; unfold number_ok in Hn; lia).
      pose proof (find_none _ _ E n Hin) as Hx. cbv beta in Hx. rewrite H, Nat.eqb_refl in Hx. discriminate.
Qed.

Lemma alive_iff : forall o, obj_alive s o = true <-> o = 0 \/ has m o = true \/ exists n, placed m n = Some o.
Proof.
  intros o. unfold obj_alive. rewrite !orb_true_iff, Nat.eqb_eq, (i_held _ _ I), existsb_exists. split.
  - intros [[H|H]|[n [_ H]]]; [left; exact H|right; left; exact H|]. right; right. exists n. rewrite (i_ref _ _ I) in H.
    destruct (placed m n) as [p|]; [|discriminate]. apply Nat.eqb_eq in H. congruence.
  - intros [H|[H|[n H]]]; [left; left; exact H|left; right; exact H|]. right. exists n. rewrite (i_ref _ _ I), H, Nat.eqb_refl.
    split; [|reflexivity]. destruct (i_placed _ _ I _ _ H) as (Hn & _). rewrite (i_ne _ _ I). apply in_seq. unfold number_ok in Hn. lia.
Qed.
Lemma dead_alive : forall o, o <> 0 -> dead m o -> obj_alive s o = false.
Proof.
  intros o H0 (_ & Hh & Hp). destruct (obj_alive s o) eqn:E; [|reflexivity]. apply alive_iff in E as [E|[E|[n E]]]; [congruence|congruence|].
  exfalso. exact (Hp n E).
Qed.

Lemma indirect_iff : forall o, is_indirect s o = number_of m o.
Proof.
  intros o. unfold is_indirect. destruct (entry (objs s o)) as [n|] eqn:E.
  - pose proof (i_entry _ _ I _ _ E) as Hp. destruct (i_placed _ _ I _ _ Hp) as (Hn & _).
    unfold entry_alive. rewrite (i_tab _ _ I). destruct Hn as [H1 H2]. apply Nat.leb_le in H1, H2. rewrite H1, H2. cbn [andb orb].
    symmetry. apply number_of_some. exact Hp.
  - destruct (number_of m o) as [n|] eqn:En; [|reflexivity]. apply number_of_some in En. destruct (i_placed _ _ I _ _ En) as (_ & _ & _ & He). congruence.
Qed.

Lemma remembered_some : forall r o, remembered s r = Some o -> placed m (names m r) = Some o.
Proof.
  intros r o H. unfold remembered in H. destruct (target (refs s r)) as [p|] eqn:Et; [|discriminate].
  destruct (obj_alive s p && negb (p =? 0)) eqn:Ea; [|discriminate]. injection H as ->.
  apply andb_true_iff in Ea as [Ea E0]. apply negb_true_iff, Nat.eqb_neq in E0.
  destruct (i_target _ _ I _ _ Et) as [H|[H|[H _]]]; [congruence|exact H|]. rewrite (dead_alive o E0 H) in Ea. discriminate.
Qed.
Lemma remembered_own : forall r, of_file m r = false -> pointed m r = true -> exists o, remembered s r = Some o.
Proof.
  intros r Hf Hp. destruct (i_own _ _ I r Hf) as [H _]. destruct (H Hp) as (o & Ht & Hpl). exists o. unfold remembered. rewrite Ht.
  destruct (i_placed _ _ I _ _ Hpl) as (_ & H0 & _). assert (Ha : obj_alive s o = true) by (apply alive_iff; right; right; exists (names m r); exact Hpl).
  rewrite Ha. apply Nat.eqb_neq in H0. rewrite H0. reflexivity.
Qed.
Lemma number_ok_ : forall r, number s r = Ok (names m r).
Proof.
  intros r. unfold number. destruct (remembered s r) as [o|] eqn:E.
  - apply remembered_some in E. unfold object_number. rewrite indirect_iff. apply number_of_some in E. rewrite E. reflexivity.
  - rewrite (i_backup _ _ I). reflexivity.
Qed.
Lemma object_under_ok : forall n, indirect_object s n = object_under m n.
Proof.
  intros n. unfold indirect_object, object_under. rewrite (i_tab _ _ I), (i_ref _ _ I). destruct (placed m n) as [o|] eqn:E.
  - destruct (i_placed _ _ I _ _ E) as ([H1 H2] & _). apply Nat.leb_le in H1, H2. rewrite H1, H2. reflexivity.
  - destruct (_ && _); reflexivity.
Qed.
Lemma is_ref_ok : forall r, is_ref s r = a_reference m r.
Proof. intros r. unfold is_ref, a_reference. rewrite (i_nr _ _ I). reflexivity. Qed.

(** giving out a handle of an object that is there *)
Lemma inv_give : forall o, o = 0 \/ (exists n, placed m n = Some o) -> inv (set_held s o true) (give m o true).
Proof.
  intros o Ho. constructor; cbn; try (destruct I; assumption).
  - intros p. unfold upd. destruct (p =? o); [reflexivity|apply (i_held _ _ I)].
  - intros n p H. destruct (i_placed _ _ I _ _ H) as (A & B & C & D). split; [exact A|split; [exact B|split; [exact C|]]].
    unfold upd. destruct (p =? o) eqn:E; [|exact D]. apply Nat.eqb_eq in E. subst p. exact D.
  - intros p n H. unfold upd in H. destruct (p =? o) eqn:E; [|exact (i_entry _ _ I _ _ H)]. apply Nat.eqb_eq in E. subst p. exact (i_entry _ _ I _ _ H).
  - intros p H. unfold upd in H. destruct (p =? o) eqn:E; [|exact (i_has _ _ I _ H)]. apply Nat.eqb_eq in E. subst p.
    destruct Ho as [->|[n Hn]]; [lia|]. destruct (i_placed _ _ I _ _ Hn) as (_ & _ & C & _). exact C.
  - intros r p H. destruct (i_target _ _ I _ _ H) as [A|[A|[(A & B & C) D]]]; [left; exact A|right; left; exact A|].
    destruct (Nat.eq_dec p o) as [->|Hne].
    + destruct Ho as [->|[n Hn]]; [left; reflexivity|]. exfalso. exact (C n Hn).
    + right; right. split; [|exact D]. split; [exact A|split; [|exact C]]. cbn. rewrite upd_neq by exact Hne. exact B.
Qed.
Lemma inv_release : forall o, inv (set_held s o false) (give m o false).
Proof.
  intros o. constructor; cbn; try (destruct I; assumption).
  - intros p. unfold upd. destruct (p =? o); [reflexivity|apply (i_held _ _ I)].
  - intros n p H. destruct (i_placed _ _ I _ _ H) as (A & B & C & D). split; [exact A|split; [exact B|split; [exact C|]]].
    unfold upd. destruct (p =? o) eqn:E; [|exact D]. apply Nat.eqb_eq in E. subst p. exact D.
  - intros p n H. unfold upd in H. destruct (p =? o) eqn:E; [|exact (i_entry _ _ I _ _ H)]. apply Nat.eqb_eq in E. subst p. exact (i_entry _ _ I _ _ H).
  - intros p H. unfold upd in H. destruct (p =? o) eqn:E; [discriminate|exact (i_has _ _ I _ H)].
  - intros r p H. destruct (i_target _ _ I _ _ H) as [A|[A|[(A & B & C) D]]]; [left; exact A|right; left; exact A|].
    right; right. split; [|exact D]. split; [exact A|split; [|exact C]]. cbn. unfold upd. destruct (p =? o); [reflexivity|exact B].
Qed.

(** changing one reference *)
Lemma inv_refs : forall r x n b, a_reference m r = true ->
  backup x = n -> has_file x = of_file m r ->
  (forall o, target x = Some o -> o = 0 \/ placed m n = Some o \/ (dead m o /\ of_file m r = true)) ->
  (of_file m r = false -> (b = true -> exists o, target x = Some o /\ placed m n = Some o) /\ (b = false -> target x = None)) ->
  (hashed x = 0 \/ hashed x = n) ->
  inv (with_refs s (upd (refs s) r x))
      {| objects := objects m; numbers := numbers m; references := references m; placed := placed m; names := upd (names m) r n;
         of_file := of_file m; pointed := upd (pointed m) r b; has := has m; has_entry := has_entry m |}.
Proof.
  intros r x n b Hr Hb Hf Ht Ho Hh. constructor; cbn; try (destruct I; assumption).
  - intros q. unfold upd. destruct (q =? r); [exact Hb|apply (i_backup _ _ I)].
  - intros q. unfold upd. destruct (q =? r) eqn:E; [|apply (i_file _ _ I)]. apply Nat.eqb_eq in E. subst q. exact Hf.
  - intros q o H. unfold upd in *. destruct (q =? r) eqn:E; [|exact (i_target _ _ I _ _ H)]. apply Nat.eqb_eq in E. subst q. exact (Ht o H).
  - intros q H. unfold upd. destruct (q =? r) eqn:E; [|exact (i_own _ _ I q H)]. apply Nat.eqb_eq in E. subst q. exact (Ho H).
  - intros q. unfold upd. destruct (q =? r); [exact Hh|apply (i_hash _ _ I)].
  - intros q H. unfold upd in H. destruct (q =? r) eqn:E; [|exact (i_pointed _ _ I q H)]. apply Nat.eqb_eq in E. subst q. exact Hr.
Qed.
End Inv.

(** a meaning that is the same everywhere *)
Lemma inv_same : forall s m m', inv s m ->
  objects m' = objects m -> numbers m' = numbers m -> references m' = references m ->
  (forall n, placed m' n = placed m n) -> (forall r, names m' r = names m r) -> (forall r, of_file m' r = of_file m r) ->
  (forall r, pointed m' r = pointed m r) -> (forall o, has m' o = has m o) -> (forall n, has_entry m' n = has_entry m n) -> inv s m'.
Proof.
  intros s m m' I H1 H2 H3 H4 H5 H6 H7 H8 H9.
  constructor; intros; unfold dead, number_ok, a_reference in *;
    rewrite ?H1, ?H2, ?H3, ?H4, ?H5, ?H6, ?H7, ?H8, ?H9 in *; try (apply I; assumption); try (apply I).
  - apply I in H. destruct H as [H|[H|[(A & B & C) D]]]; [left; exact H|right; left; exact H|right; right].
    split; [|exact D]. split; [exact A|split; [exact B|]]. intros n. rewrite H4. apply C.
Qed.

Lemma step_meant : forall s m p, inv s m -> careful_step m p -> inv (fst (step s p)) (fst (means m p)) /\ snd (step s p) = snd (means m p).
Proof.
  intros s m p I C. destruct p as [| | |n|n o|n|n|n|o|n|r o|r|r|r|r|r r']; cbn [step means careful_step] in *.
  - (* NewObject *)
    rewrite (i_no _ _ I). split; [|reflexivity]. constructor; cbn; try (destruct I; assumption).
    + reflexivity.
    + intros p. unfold upd. destruct (p =? S (objects m)); [reflexivity|apply (i_held _ _ I)].
    + intros n o H. destruct (i_placed _ _ I _ _ H) as (A & B & D & E). split; [exact A|split; [exact B|split; [lia|]]].
      rewrite upd_neq by lia. exact E.
    + intros o n H. unfold upd in H. destruct (o =? S (objects m)) eqn:E; [discriminate|]. exact (i_entry _ _ I _ _ H).
    + intros o H. unfold upd in H. destruct (o =? S (objects m)) eqn:E; [apply Nat.eqb_eq in E; lia|]. apply (i_has _ _ I) in H. lia.
    + intros r o H. destruct (i_target _ _ I _ _ H) as [A|[A|[(A & B & D) E]]]; [left; exact A|right; left; exact A|].
      right; right. split; [|exact E]. split; [cbn; lia|split; [|exact D]]. cbn. rewrite upd_neq by lia. exact B.
  - (* Allocate *)
    rewrite (i_ne _ _ I). split; [|reflexivity].
    assert (Hno : placed m (S (numbers m)) = None).
    { destruct (placed m (S (numbers m))) as [o|] eqn:E; [|reflexivity]. destruct (i_placed _ _ I _ _ E) as ([_ H] & _). lia. }
    constructor; cbn; try (destruct I; assumption).
    + reflexivity.
    + intros n. unfold upd. destruct (n =? S (numbers m)); [reflexivity|apply (i_kept _ _ I)].
    + intros n. unfold upd. destruct (n =? S (numbers m)) eqn:E.
      * apply Nat.eqb_eq in E. subst n. cbn. symmetry. apply Nat.leb_le. lia.
      * apply Nat.eqb_neq in E. rewrite (i_tab _ _ I). transitivity ((1 <=? n) && (n <=? S (numbers m))); [|reflexivity].
        destruct (1 <=? n); cbn [andb]; [|reflexivity].
        destruct (n <=? numbers m) eqn:E1, (n <=? S (numbers m)) eqn:E2; try reflexivity;
          apply Nat.leb_le in E1 || apply Nat.leb_gt in E1; apply Nat.leb_le in E2 || apply Nat.leb_gt in E2; lia.
    + intros n. unfold upd. destruct (n =? S (numbers m)) eqn:E; [|apply (i_ref _ _ I)]. apply Nat.eqb_eq in E. subst n. cbn. congruence.
    + intros n o H. destruct (i_placed _ _ I _ _ H) as ([A1 A2] & B & D & E). split; [split; cbn; lia|]. repeat split; assumption.
    + intros n H. unfold upd in H. destruct (n =? S (numbers m)) eqn:E.
      * apply Nat.eqb_eq in E. subst n. split; cbn; lia.
      * apply (i_key _ _ I) in H. destruct H. split; cbn; lia.
  - (* NewReference *)
    unfold new_reference. rewrite (i_nr _ _ I). split; [|reflexivity]. constructor; cbn; try reflexivity; try (destruct I; assumption); intros q; unfold upd.
    + destruct (q =? S (references m)); [reflexivity|apply (i_backup _ _ I)].
    + destruct (q =? S (references m)); [reflexivity|apply (i_file _ _ I)].
    + intros o H. destruct (q =? S (references m)); [discriminate|exact (i_target _ _ I _ _ H)].
    + destruct (q =? S (references m)); [|apply (i_own _ _ I)]. intros _. split; [discriminate|reflexivity].
    + destruct (q =? S (references m)); [left; reflexivity|apply (i_hash _ _ I)].
    + intros H. destruct (q =? S (references m)); [discriminate|]. apply (i_pointed _ _ I) in H. unfold a_reference in *. cbn [references].
      apply andb_true_iff in H as [A B]. apply andb_true_iff. split; [exact A|]. apply Nat.leb_le in B. apply Nat.leb_le.
      cbn [references new_name]. lia.
  - (* ReadReference *)
    unfold new_reference. rewrite (i_nr _ _ I). split; [|reflexivity]. constructor; cbn; try reflexivity; try (destruct I; assumption); intros q; unfold upd.
    + destruct (q =? S (references m)); [reflexivity|apply (i_backup _ _ I)].
    + destruct (q =? S (references m)); [reflexivity|apply (i_file _ _ I)].
    + intros o H. destruct (q =? S (references m)); [discriminate|exact (i_target _ _ I _ _ H)].
    + destruct (q =? S (references m)); [|apply (i_own _ _ I)]. discriminate.
    + destruct (q =? S (references m)); [left; reflexivity|apply (i_hash _ _ I)].
    + intros H. destruct (q =? S (references m)); [discriminate|]. apply (i_pointed _ _ I) in H. unfold a_reference in *. cbn [references].
      apply andb_true_iff in H as [A B]. apply andb_true_iff. split; [exact A|]. apply Nat.leb_le in B. apply Nat.leb_le.
      cbn [references new_name]. lia.
  - (* Place *)
    rewrite (i_kept _ _ I), (i_held _ _ I). destruct (has_entry m n && has m o) eqn:E; [|split; [exact I|reflexivity]].
    apply andb_true_iff in E as [Ek Eh]. destruct C as (H0 & Hn & Hold). split; [|reflexivity]. cbn [fst].
    assert (Hfree : forall k, placed m k <> Some o).
    { intros k Hk. apply (number_of_some _ _ I) in Hk. congruence. }
    unfold set_reference, release_reference. rewrite (i_ref _ _ I). destruct (placed m n) as [old|] eqn:Ep.
    + destruct (Hold old eq_refl) as [Hh Hr]. clear Hold. destruct (i_placed _ _ I _ _ Ep) as (Hno & Ho0 & Hole & Hoe).
      assert (Hne : o <> old) by (intros ->; congruence).
      constructor; cbn; try (destruct I; assumption).
      * intros p. unfold upd. rewrite <- (i_held _ _ I p). destruct (p =? o) eqn:E1; [apply Nat.eqb_eq in E1; subst p|];
          [destruct (o =? old) eqn:E2; [apply Nat.eqb_eq in E2; congruence|reflexivity]|].
        destruct (p =? old) eqn:E2; [apply Nat.eqb_eq in E2; subst p; reflexivity|reflexivity].
      * intros k. unfold upd. rewrite Nat.eqb_refl. destruct (k =? n) eqn:E1; [apply Nat.eqb_eq in E1; subst k|]; apply (i_kept _ _ I).
      * intros k. unfold upd. rewrite Nat.eqb_refl. destruct (k =? n) eqn:E1; [apply Nat.eqb_eq in E1; subst k|]; apply (i_tab _ _ I).
      * intros k. unfold upd. rewrite Nat.eqb_refl. destruct (k =? n) eqn:E1; [reflexivity|apply (i_ref _ _ I)].
      * intros k p H. destruct (Nat.eq_dec k n) as [->|Hkn].
        { rewrite upd_eq in H. injection H as <-. split; [exact Hno|split; [exact H0|split; [exact (i_has _ _ I _ Eh)|]]].
          rewrite upd_eq. reflexivity. }
        { rewrite upd_neq in H by exact Hkn. destruct (i_placed _ _ I _ _ H) as (A & B & D & F). split; [exact A|split; [exact B|split; [exact D|]]].
          rewrite upd_neq by (intros ->; exact (Hfree k H)). rewrite upd_neq by (intros ->; congruence). exact F. }
      * intros p k H. unfold upd in H. destruct (p =? o) eqn:E1.
        { cbn in H. injection H as <-. apply Nat.eqb_eq in E1. subst p. apply upd_eq. }
        destruct (p =? old) eqn:E2; [discriminate|]. apply (i_entry _ _ I) in H. rewrite upd_neq; [exact H|]. intros ->.
        apply Nat.eqb_neq in E2. congruence.
      * intros r p H. destruct (i_target _ _ I _ _ H) as [A|[A|[(A & B & D) F]]]; [left; exact A| |].
        { destruct (Nat.eq_dec (names m r) n) as [Hrn|Hrn].
          - rewrite Hrn in A. assert (p = old) by congruence. subst p. right; right. split.
            + split; [exact Hole|split; [exact Hh|]]. cbn. intros k Hk. destruct (Nat.eq_dec k n) as [->|Hkn]; [rewrite upd_eq in Hk; congruence|].
              rewrite upd_neq in Hk by exact Hkn. destruct (i_placed _ _ I _ _ Hk) as (_ & _ & _ & Hk'). congruence.
            + destruct (of_file m r) eqn:Ef; [reflexivity|]. destruct (pointed m r) eqn:Epo.
              * pose proof (Hr r (i_pointed _ _ I r Epo) Hrn). congruence.
              * destruct (i_own _ _ I r Ef) as [_ Hx]. rewrite (Hx Epo) in H. discriminate.
          - right; left. rewrite upd_neq by exact Hrn. exact A. }
        { right; right. split; [|exact F]. split; [exact A|split; [exact B|]]. cbn. intros k Hk.
          destruct (Nat.eq_dec k n) as [->|Hkn]; [rewrite upd_eq in Hk; congruence|rewrite upd_neq in Hk by exact Hkn; exact (D k Hk)]. }
      * intros r Hf. destruct (i_own _ _ I r Hf) as [A B]. split; [|exact B]. intros Hp. destruct (A Hp) as (q & Hq1 & Hq2). exists q.
        split; [exact Hq1|]. rewrite upd_neq; [exact Hq2|]. intros Hrn. pose proof (Hr r (i_pointed _ _ I r Hp) Hrn). congruence.
    + clear Hold. constructor; cbn; try (destruct I; assumption).
      * intros p. unfold upd. destruct (p =? o) eqn:E1; [apply Nat.eqb_eq in E1; subst p|]; apply (i_held _ _ I).
      * intros k. unfold upd. destruct (k =? n) eqn:E1; [apply Nat.eqb_eq in E1; subst k|]; apply (i_kept _ _ I).
      * intros k. unfold upd. destruct (k =? n) eqn:E1; [apply Nat.eqb_eq in E1; subst k|]; apply (i_tab _ _ I).
      * intros k. unfold upd. destruct (k =? n) eqn:E1; [reflexivity|apply (i_ref _ _ I)].
      * intros k p H. destruct (Nat.eq_dec k n) as [->|Hkn].
        { rewrite upd_eq in H. injection H as <-. split; [exact (i_key _ _ I _ Ek)|split; [exact H0|split; [exact (i_has _ _ I _ Eh)|]]].
          rewrite upd_eq. reflexivity. }
        { rewrite upd_neq in H by exact Hkn. destruct (i_placed _ _ I _ _ H) as (A & B & D & F). split; [exact A|split; [exact B|split; [exact D|]]].
          rewrite upd_neq by (intros ->; exact (Hfree k H)). exact F. }
      * intros p k H. unfold upd in H. destruct (p =? o) eqn:E1.
        { cbn in H. injection H as <-. apply Nat.eqb_eq in E1. subst p. apply upd_eq. }
        apply (i_entry _ _ I) in H. rewrite upd_neq; [exact H|]. intros ->. congruence.
      * intros r p H. destruct (i_target _ _ I _ _ H) as [A|[A|[(A & B & D) F]]]; [left; exact A| |].
        { right; left. rewrite upd_neq; [exact A|]. intros Hrn. rewrite Hrn in A. congruence. }
        { right; right. split; [|exact F]. split; [exact A|split; [exact B|]]. cbn. intros k Hk.
          destruct (Nat.eq_dec k n) as [->|Hkn]; [rewrite upd_eq in Hk; congruence|rewrite upd_neq in Hk by exact Hkn; exact (D k Hk)]. }
      * intros r Hf. destruct (i_own _ _ I r Hf) as [A B]. split; [|exact B]. intros Hp. destruct (A Hp) as (q & Hq1 & Hq2). exists q.
        split; [exact Hq1|]. rewrite upd_neq; [exact Hq2|]. intros Hrn. rewrite Hrn in Hq2. congruence.
  - (* FindEntry *)
    rewrite (i_tab _ _ I). destruct ((1 <=? n) && (n <=? numbers m)) eqn:E; [|split; [exact I|reflexivity]]. split; [|reflexivity].
    cbn [fst]. pose proof E as E'. apply andb_true_iff in E' as [E1 E2]. apply Nat.leb_le in E1, E2.
    constructor; cbn; try (destruct I; assumption).
    + intros k. unfold upd. destruct (k =? n); [reflexivity|apply (i_kept _ _ I)].
    + intros k. unfold upd. destruct (k =? n) eqn:Ek; [apply Nat.eqb_eq in Ek; subst k; symmetry; exact E|apply (i_tab _ _ I)].
    + intros k. unfold upd. destruct (k =? n) eqn:Ek; [apply Nat.eqb_eq in Ek; subst k; cbn|]; apply (i_ref _ _ I).
    + intros k H. unfold upd in H. destruct (k =? n) eqn:Ek; [apply Nat.eqb_eq in Ek; subst k; split; assumption|exact (i_key _ _ I _ H)].
  - (* RemoveEntry *)
    rewrite (i_tab _ _ I). destruct ((1 <=? n) && (n <=? numbers m)) eqn:E; [|split; [exact I|reflexivity]].
    apply andb_true_iff in E as [E1 E2]. apply Nat.leb_le in E1, E2. lia.
  - (* Fetch *)
    rewrite (object_under_ok _ _ I). split; [|reflexivity]. cbn [fst]. apply inv_give; [exact I|]. unfold object_under.
    destruct (placed m n) as [o|] eqn:E; [right; exists n; exact E|left; reflexivity].
  - (* Release *)
    split; [apply inv_release; exact I|reflexivity].
  - (* ReleaseEntry *)
    split; [|reflexivity]. cbn [fst]. constructor; cbn; try (destruct I; assumption).
    + intros k. unfold upd. destruct (k =? n); [reflexivity|apply (i_kept _ _ I)].
    + intros k. unfold upd. destruct (k =? n) eqn:Ek; [apply Nat.eqb_eq in Ek; subst k; cbn|]; apply (i_tab _ _ I).
    + intros k. unfold upd. destruct (k =? n) eqn:Ek; [apply Nat.eqb_eq in Ek; subst k; cbn|apply (i_ref _ _ I)].
      rewrite (i_tab _ _ I), (i_ref _ _ I), orb_false_r. destruct (placed m n) as [o|] eqn:Ep; [|destruct (_ && _); reflexivity].
      destruct (i_placed _ _ I _ _ Ep) as ([A B] & _). apply Nat.leb_le in A, B. rewrite A, B. reflexivity.
    + intros k H. unfold upd in H. destruct (k =? n); [discriminate|exact (i_key _ _ I _ H)].
  - (* PointAt *)
    rewrite (is_ref_ok _ _ I), (i_held _ _ I). destruct (a_reference m r && has m o) eqn:E; [|split; [exact I|reflexivity]].
    apply andb_true_iff in E as [Er _]. unfold set_referenced. rewrite (indirect_iff _ _ I). apply Nat.eqb_neq in C. rewrite C.
    destruct (number_of m o) as [n|] eqn:En; [|split; [exact I|reflexivity]]. apply (number_of_some _ _ I) in En.
    split; [|reflexivity]. cbn [fst]. apply inv_refs; cbn; try assumption.
    + reflexivity.
    + apply (i_file _ _ I).
    + intros p Hp. injection Hp as <-. right; left; exact En.
    + intros _. split; [|discriminate]. intros _. exists o. split; [reflexivity|exact En].
    + left; reflexivity.
  - (* Number *)
    rewrite (is_ref_ok _ _ I). destruct (a_reference m r); (split; [exact I|]); [|reflexivity]. cbn [snd]. rewrite (number_ok_ _ _ I). reflexivity.
  - (* Text *)
    rewrite (is_ref_ok _ _ I). destruct (a_reference m r); (split; [exact I|]); [|reflexivity]. cbn [snd]. rewrite (number_ok_ _ _ I). reflexivity.
  - (* Target *)
    rewrite (is_ref_ok _ _ I). destruct (a_reference m r) eqn:Er; [|split; [exact I|reflexivity]]. unfold get_referenced.
    destruct (remembered s r) as [o|] eqn:E.
    + apply (remembered_some _ _ I) in E as Ep.
      assert (Hc : of_file m r || pointed m r = true).
      { destruct (of_file m r) eqn:Ef; [reflexivity|]. destruct (pointed m r) eqn:Epo; [reflexivity|].
        destruct (i_own _ _ I r Ef) as [_ H]. unfold remembered in E. rewrite (H Epo) in E. discriminate. }
      rewrite Hc. unfold object_under. rewrite Ep. split; [|reflexivity]. cbn [fst]. apply inv_give; [exact I|]. right. exists (names m r). exact Ep.
    + rewrite (i_file _ _ I), (i_backup _ _ I), (object_under_ok _ _ I). destruct (of_file m r) eqn:Ef; cbn [orb].
      * split; [|reflexivity]. cbn [fst].
        apply (inv_give _ _) with (o := object_under m (names m r)).
        2:{ unfold object_under. destruct (placed m (names m r)) as [o|] eqn:Ep; [right; exists (names m r); exact Ep|left; reflexivity]. }
        eapply inv_same; [apply (inv_refs _ _ I r _ (names m r) (pointed m r) Er)| | | | | | | | |]; cbn; try reflexivity; try assumption;
          try (intros q; unfold upd; destruct (q =? r) eqn:Eq; [apply Nat.eqb_eq in Eq; subst q|]; reflexivity).
        { rewrite Ef; reflexivity. }
        { intros p Hp. injection Hp as <-. unfold object_under. destruct (placed m (names m r)) as [o|]; [right; left; reflexivity|left; reflexivity]. }
        { intros Hx. congruence. }
        { apply (i_hash _ _ I). }
      * destruct (pointed m r) eqn:Ep; [|split; [exact I|reflexivity]].
        destruct (remembered_own _ _ I r Ef Ep) as [o Ho]. congruence.
  - (* Hash *)
    rewrite (is_ref_ok _ _ I). destruct (a_reference m r) eqn:Er; [|split; [exact I|reflexivity]]. unfold hash.
    destruct (hashed (refs s r) =? 0) eqn:E; cbn [negb].
    + rewrite (number_ok_ _ _ I). split; [|reflexivity]. cbn [fst].
      eapply inv_same; [apply (inv_refs _ _ I r _ (names m r) (pointed m r) Er)| | | | | | | | |]; cbn; try reflexivity; try assumption;
        try (intros q; unfold upd; destruct (q =? r) eqn:Eq; [apply Nat.eqb_eq in Eq; subst q|]; reflexivity).
      * apply (i_backup _ _ I).
      * apply (i_file _ _ I).
      * apply (i_target _ _ I).
      * apply (i_own _ _ I).
      * right; reflexivity.
    + split; [exact I|]. cbn [snd answer_of]. apply Nat.eqb_neq in E. destruct (i_hash _ _ I r) as [H|H]; [congruence|]. rewrite H. reflexivity.
  - (* Equal *)
    rewrite !(is_ref_ok _ _ I). destruct (a_reference m r && a_reference m r'); (split; [exact I|]); [|reflexivity]. cbn [snd].
    unfold equals. rewrite !(number_ok_ _ _ I). reflexivity.
Qed.

Lemma run_meant : forall h s m, inv s m -> careful m h -> snd (run s h) = meant m h.
Proof.
  induction h as [|p h IH]; intros s m I C; [reflexivity|]. destruct C as [C1 C2]. cbn [run meant].
  destruct (step_meant s m p I C1) as [I' A]. destruct (step s p) as [s1 a] eqn:E1. cbn [fst snd] in *.
  specialize (IH s1 _ I' C2). destruct (run s1 h) as [s2 l]. cbn [snd] in *. congruence.
Qed.

Lemma run_app : forall h1 h2 s, run s (h1 ++ h2) = (fst (run (fst (run s h1)) h2), snd (run s h1) ++ snd (run (fst (run s h1)) h2)).
Proof.
  induction h1 as [|p h1 IH]; intros h2 s.
  - cbn [run app fst snd]. destruct (run s h2); reflexivity.
  - cbn [run app]. destruct (step s p) as [s1 a]. rewrite IH. destruct (run s1 h1) as [s2 l]. reflexivity.
Qed.
Lemma run_inv : forall h s m, inv s m -> careful m h -> inv (fst (run s h)) (fold_left (fun m p => fst (means m p)) h m).
Proof.
  induction h as [|p h IH]; intros s m I C; [exact I|]. destruct C as [C1 C2]. cbn [run fold_left].
  destruct (step_meant s m p I C1) as [I' A]. destruct (step s p) as [s1 a] eqn:E1. cbn [fst] in *.
  specialize (IH s1 _ I' C2). destruct (run s1 h) as [s2 l]. exact IH.
Qed.
Lemma run_after : forall h h2, careful nothing h ->
  exists s, inv s (after h) /\ snd (run init (h ++ h2)) = meant nothing h ++ snd (run s h2).
Proof.
  intros h h2 C. exists (fst (run init h)). split; [exact (run_inv h init nothing inv_init C)|]. rewrite run_app. cbn [snd].
  rewrite (run_meant h init nothing inv_init C). reflexivity.
Qed.

(** answers of the questions, from what is remembered *)
Lemma remembered_held : forall s r o, target (refs s r) = Some o -> held (objs s o) = true -> o <> 0 -> remembered s r = Some o.
Proof.
  intros s r o Ht Hh H0. unfold remembered, obj_alive. rewrite Ht, Hh, orb_true_r. apply Nat.eqb_neq in H0. rewrite H0. reflexivity.
Qed.
Lemma number_held : forall s r o, target (refs s r) = Some o -> held (objs s o) = true -> o <> 0 ->
  number s r = match entry (objs s o) with Some n => if entry_alive s n then Ok n else Throw EGeneral | None => Throw EGeneral end.
Proof.
  intros s r o Ht Hh H0. unfold number. rewrite (remembered_held s r o Ht Hh H0). unfold object_number, is_indirect.
  destruct (entry (objs s o)) as [n|]; [|reflexivity]. destruct (entry_alive s n); reflexivity.
Qed.

Lemma points_target : forall s m r o n, inv s m -> points m r o n ->
  target (refs s r) = Some o /\ entry (objs s o) = Some n /\ o <> 0 /\ refers (ents s n) = Some o /\ in_table (ents s n) = true.
Proof.
  intros s m r o n I (Hr & Hf & Hp & Hn & Hpl & Hh). destruct (i_own _ _ I r Hf) as [A _]. destruct (A Hp) as (p & Ht & Hx).
  rewrite Hn, Hpl in Hx. injection Hx as <-. destruct (i_placed _ _ I _ _ Hpl) as ([B1 B2] & C & _ & D).
  split; [exact Ht|split; [exact D|split; [exact C|split]]]; [rewrite (i_ref _ _ I); exact Hpl|].
  rewrite (i_tab _ _ I). apply Nat.leb_le in B1, B2. rewrite B1, B2. reflexivity.
Qed.

Lemma replaced : forall s m r o n o2, inv s m -> points m r o n -> has_entry m n = true -> has m o2 = true -> o2 <> o ->
  snd (run s [Place n o2; Number r; Text r]) = [ADone; ACrash; AError EGeneral].
Proof.
  intros s m r o n o2 I P Hk Hh Hne. destruct (points_target s m r o n I P) as (Ht & He & H0 & Hre & Hin).
  destruct P as (Hr & Hf & Hp & Hn & Hpl & Hho).
  cbn [run step]. rewrite (i_kept _ _ I), Hk, (i_held _ _ I), Hh. cbn [andb].
  set (s1 := set_reference s n o2).
  assert (Hr1 : is_ref s1 r = true) by (rewrite <- Hr, <- (is_ref_ok _ _ I); unfold s1, set_reference, release_reference; rewrite Hre; reflexivity).
  rewrite Hr1. cbn [run]. rewrite Hr1. cbn [snd].
  assert (Hnum : number s1 r = Throw EGeneral).
  { rewrite (number_held s1 r o).
    - unfold s1, set_reference, release_reference. rewrite Hre. cbn. rewrite upd_neq by (intros E; congruence). rewrite upd_eq. reflexivity.
    - unfold s1, set_reference, release_reference. rewrite Hre. cbn. exact Ht.
    - unfold s1, set_reference, release_reference. rewrite Hre. cbn. rewrite upd_neq by (intros E; congruence). rewrite upd_eq. cbn.
      rewrite (i_held _ _ I). exact Hho.
    - exact H0. }
  rewrite Hnum. reflexivity.
Qed.

Lemma replaced_released : forall s m r o n o2, inv s m -> points m r o n -> has_entry m n = true -> has m o2 = true -> o2 <> o ->
  snd (run s [Release o; Place n o2; Number r; Text r; Target r]) = [ADone; ADone; ANumber n; ANumber n; AError EFileDisposed].
Proof.
  intros s m r o n o2 I P Hk Hh Hne. destruct (points_target s m r o n I P) as (Ht & He & H0 & Hre & Hin).
  destruct P as (Hr & Hf & Hp & Hn & Hpl & Hho).
  cbn [run step]. set (s0 := set_held s o false).
  assert (Hk0 : kept (ents s0 n) = true) by (unfold s0; cbn; rewrite (i_kept _ _ I); exact Hk).
  assert (Hh0 : held (objs s0 o2) = true) by (unfold s0; cbn; rewrite upd_neq by exact Hne; rewrite (i_held _ _ I); exact Hh).
  rewrite Hk0, Hh0. cbn [andb].
  set (s1 := set_reference s0 n o2).
  assert (Hre0 : refers (ents s0 n) = Some o) by exact Hre.
  assert (Hr1 : is_ref s1 r = true) by (rewrite <- Hr, <- (is_ref_ok _ _ I); unfold s1, set_reference, release_reference; rewrite Hre0; reflexivity).
  rewrite Hr1. cbn [run]. rewrite Hr1. cbn [run]. rewrite Hr1.
  assert (Hx : refs s1 r = refs s r) by (unfold s1, set_reference, release_reference; rewrite Hre0; reflexivity).
  assert (Hdead : obj_alive s1 o = false).
  { unfold obj_alive. apply orb_false_iff. split; [apply orb_false_iff; split|].
    - apply Nat.eqb_neq. exact H0.
    - unfold s1, set_reference, release_reference. rewrite Hre0. cbn. rewrite upd_neq by (intros E; congruence). rewrite upd_eq. cbn. rewrite upd_eq. reflexivity.
    - destruct (existsb _ _) eqn:E; [|reflexivity]. apply existsb_exists in E as (k & _ & E). exfalso.
      unfold s1, set_reference, release_reference in E. rewrite Hre0 in E. cbn in E. unfold upd in E. destruct (k =? n) eqn:Ek; cbn in E.
      + apply Nat.eqb_eq in E. congruence.
      + rewrite (i_ref _ _ I) in E. destruct (placed m k) as [p|] eqn:Epl; [|discriminate]. apply Nat.eqb_eq in E. subst p.
        destruct (i_placed _ _ I _ _ Epl) as (_ & _ & _ & He'). apply Nat.eqb_neq in Ek. congruence. }
  assert (Hrem : remembered s1 r = None) by (unfold remembered; rewrite Hx, Ht, Hdead; reflexivity).
  assert (Hnum : number s1 r = Ok n) by (unfold number; rewrite Hrem, Hx, (i_backup _ _ I), Hn; reflexivity).
  rewrite Hnum. unfold get_referenced. rewrite Hrem, Hx, (i_file _ _ I), Hf. reflexivity.
Qed.

(** an object that gets a second number *)
Lemma moved : forall s m r o n k, inv s m -> points m r o n -> has_entry m k = true -> placed m k = None ->
  let r' := S (references m) in
  snd (run s [Hash r; Place k o; Number r; Hash r; NewReference; PointAt r' o; Equal r r'; Hash r'])
  = [ANumber n; ADone; ANumber k; ANumber n; AReference r'; ADone; ABool true; ANumber k].
Proof.
  intros s m r o n k I P Hk Hfree r'. destruct (points_target s m r o n I P) as (Ht & He & H0 & Hre & Hin).
  destruct P as (Hr & Hf & Hp & Hn & Hpl & Hho).
  destruct (i_placed _ _ I _ _ Hpl) as ([Hn1 _] & _). destruct (i_key _ _ I _ Hk) as [Hk1 Hk2].
  assert (Hkn : k <> n) by (intros ->; congruence).
  assert (Hrr : 1 <= r <= references m) by (unfold a_reference in Hr; apply andb_true_iff in Hr as [A B]; apply Nat.leb_le in A, B; lia).
  (* the first hash *)
  destruct (step_meant s m (Hash r) I Logic.I) as [I1 A1]. cbn [run].
  assert (Hst : fst (step s (Hash r)) = with_refs s (upd (refs s) r {| backup := n; target := Some o; hashed := n; has_file := false |})
                \/ (fst (step s (Hash r)) = s /\ hashed (refs s r) = n)).
  { cbn [step]. rewrite (is_ref_ok _ _ I), Hr. unfold hash. destruct (hashed (refs s r) =? 0) eqn:E; cbn [negb].
    - left. rewrite (number_ok_ _ _ I). cbn [fst]. rewrite Hn, Ht, (i_backup _ _ I), (i_file _ _ I), Hf, Hn. reflexivity.
    - right. split; [reflexivity|]. apply Nat.eqb_neq in E. destruct (i_hash _ _ I r); congruence. }
  destruct (step s (Hash r)) as [s1 a1]. cbn [fst snd] in Hst, A1, I1. cbn [means snd fst] in A1, I1. rewrite Hr in A1. rewrite A1, Hn.
  assert (Hs1 : target (refs s1 r) = Some o /\ hashed (refs s1 r) = n /\ objs s1 = objs s /\ ents s1 = ents s /\ nrefs s1 = references m).
  { destruct Hst as [->|[-> Hh]].
    - cbn. rewrite upd_eq. cbn. repeat split; try reflexivity. apply (i_nr _ _ I).
    - repeat split; try assumption. apply (i_nr _ _ I). }
  destruct Hs1 as (Ht1 & Hh1 & Ho1 & He1 & Hc1).
  (* placing *)
  cbn [step]. rewrite Ho1, He1, (i_kept _ _ I), Hk, (i_held _ _ I), Hho. cbn [andb].
  set (s2 := set_reference s1 k o).
  assert (Hs2 : s2 = set_entry (set_refers s1 k (Some o)) o (Some k)).
  { unfold s2, set_reference, release_reference. rewrite He1, (i_ref _ _ I), Hfree. reflexivity. }
  assert (Href2 : refs s2 = refs s1) by (rewrite Hs2; reflexivity).
  assert (Hnr2 : nrefs s2 = references m) by (rewrite Hs2; exact Hc1).
  assert (Hir2 : is_ref s2 r = true).
  { unfold is_ref. rewrite Hnr2. destruct Hrr as [A B]. apply Nat.leb_le in A, B. rewrite A, B. reflexivity. }
  assert (Hheld2 : held (objs s2 o) = true) by (rewrite Hs2; cbn; rewrite upd_eq; cbn; rewrite Ho1, (i_held _ _ I); exact Hho).
  assert (Hent2 : entry (objs s2 o) = Some k) by (rewrite Hs2; cbn; rewrite upd_eq; reflexivity).
  assert (Hal2 : entry_alive s2 k = true).
  { rewrite Hs2. unfold entry_alive. cbn. rewrite upd_eq. cbn. rewrite He1, (i_kept _ _ I), Hk, orb_true_r. reflexivity. }
  assert (Hnum2 : number s2 r = Ok k).
  { rewrite (number_held s2 r o); [rewrite Hent2, Hal2; reflexivity|rewrite Href2; exact Ht1|exact Hheld2|exact H0]. }
  assert (Hhash2 : hash s2 r = (s2, Ok n)).
  { unfold hash. rewrite Href2, Hh1. destruct (n =? 0) eqn:E; [apply Nat.eqb_eq in E; lia|reflexivity]. }
  rewrite Hir2, Hnum2. cbn [run]. rewrite Hir2, Hhash2. cbn [run]. cbn [step]. unfold new_reference. rewrite Hnr2. fold r'.
  set (s3 := {| objs := objs s2; nobjs := nobjs s2; ents := ents s2; nents := nents s2;
                refs := upd (refs s2) r' {| backup := 0; target := None; hashed := 0; has_file := false |}; nrefs := r' |}).
  assert (Hrr' : r <> r') by (unfold r'; lia).
  assert (Hir3 : is_ref s3 r' = true) by (unfold is_ref; cbn [nrefs s3]; rewrite Nat.leb_refl; reflexivity).
  assert (Hind3 : is_indirect s3 o = Some k).
  { unfold is_indirect. replace (objs s3) with (objs s2) by reflexivity. rewrite Hent2.
    replace (entry_alive s3 k) with (entry_alive s2 k) by reflexivity. rewrite Hal2. reflexivity. }
  cbn [run step]. rewrite Hir3. replace (objs s3) with (objs s2) by reflexivity. rewrite Hheld2. cbn [andb]. unfold set_referenced. rewrite Hind3.
  set (s4 := with_refs s3 (upd (refs s3) r' {| backup := k; target := Some o; hashed := 0; has_file := has_file (refs s3 r') |})).
  assert (Hir4 : is_ref s4 r' = true) by exact Hir3.
  assert (Hir4' : is_ref s4 r = true).
  { unfold is_ref. cbn [nrefs s4 with_refs s3]. destruct Hrr as [A B]. apply Nat.leb_le in A. rewrite A. apply Nat.leb_le. unfold r'. lia. }
  assert (Hn4 : number s4 r = Ok k).
  { rewrite (number_held s4 r o).
    - replace (objs s4) with (objs s2) by reflexivity. rewrite Hent2. replace (entry_alive s4 k) with (entry_alive s2 k) by reflexivity. rewrite Hal2. reflexivity.
    - cbn [refs s4 with_refs s3]. rewrite !upd_neq by exact Hrr'. rewrite Href2. exact Ht1.
    - exact Hheld2.
    - exact H0. }
  assert (Hn4' : number s4 r' = Ok k).
  { rewrite (number_held s4 r' o).
    - replace (objs s4) with (objs s2) by reflexivity. rewrite Hent2. replace (entry_alive s4 k) with (entry_alive s2 k) by reflexivity. rewrite Hal2. reflexivity.
    - cbn [refs s4 with_refs s3]. rewrite upd_eq. reflexivity.
    - exact Hheld2.
    - exact H0. }
  cbn [answer_of]. rewrite Hir4, Hir4'. cbn [andb]. unfold equals. rewrite Hn4, Hn4', Nat.eqb_refl. cbn [run step]. rewrite Hir4.
  assert (Hh4 : snd (hash s4 r') = Ok k).
  { unfold hash. cbn [refs s4 with_refs s3]. rewrite upd_eq. cbn [hashed negb Nat.eqb]. rewrite Hn4'. reflexivity. }
  destruct (hash s4 r') as [s5 x5]. cbn [snd] in Hh4. rewrite Hh4. reflexivity.
Qed.

(** and then another object there *)
Lemma orphan : forall s m r o n k o2, inv s m -> points m r o n -> has_entry m k = true -> placed m k = None -> has m o2 = true -> o2 <> o ->
  snd (run s [Place k o; Place k o2; Fetch n; Number r; Text r]) = [ADone; ADone; AObject o; ACrash; AError EGeneral].
Proof.
  intros s m r o n k o2 I P Hk Hfree Hh2 Hne. destruct (points_target s m r o n I P) as (Ht & He & H0 & Hre & Hin).
  destruct P as (Hr & Hf & Hp & Hn & Hpl & Hho). assert (Hkn : k <> n) by (intros ->; congruence).
  cbn [run step]. rewrite (i_kept _ _ I), Hk, (i_held _ _ I), Hho. cbn [andb].
  set (s1 := set_reference s k o).
  assert (Hs1 : s1 = set_entry (set_refers s k (Some o)) o (Some k)).
  { unfold s1, set_reference, release_reference. rewrite (i_ref _ _ I), Hfree. reflexivity. }
  assert (Hk1 : kept (ents s1 k) = true) by (rewrite Hs1; cbn; rewrite upd_eq; cbn; rewrite (i_kept _ _ I); exact Hk).
  assert (Hh1 : held (objs s1 o2) = true) by (rewrite Hs1; cbn; rewrite upd_neq by exact Hne; rewrite (i_held _ _ I); exact Hh2).
  assert (Hr1 : refers (ents s1 k) = Some o) by (rewrite Hs1; cbn; rewrite upd_eq; reflexivity).
  rewrite Hk1, Hh1. cbn [andb].
  set (s2 := set_reference s1 k o2).
  assert (Hs2 : s2 = set_entry (set_refers (set_refers (set_entry s1 o None) k None) k (Some o2)) o2 (Some k)).
  { unfold s2, set_reference, release_reference. rewrite Hr1. reflexivity. }
  assert (Hind : indirect_object s2 n = o).
  { unfold indirect_object. rewrite Hs2, Hs1. cbn. rewrite !upd_neq by (intros E; congruence). rewrite Hin, Hre. reflexivity. }
  rewrite Hind. set (s3 := set_held s2 o true).
  assert (Hir : is_ref s3 r = true).
  { rewrite <- Hr, <- (is_ref_ok _ _ I). unfold s3, is_ref. rewrite Hs2, Hs1. reflexivity. }
  assert (Hnum : number s3 r = Throw EGeneral).
  { assert (Hent : entry (objs s3 o) = None).
    { unfold s3, set_held. cbn [objs with_objs]. rewrite upd_eq. cbn [entry]. rewrite Hs2. cbn. rewrite upd_neq by (intros E; congruence). rewrite upd_eq. reflexivity. }
    rewrite (number_held s3 r o).
    - rewrite Hent. reflexivity.
    - unfold s3. rewrite Hs2, Hs1. exact Ht.
    - unfold s3, set_held. cbn [objs with_objs]. rewrite upd_eq. reflexivity.
    - exact H0. }
  rewrite Hir. cbn [run]. rewrite Hir, Hnum. reflexivity.
Qed.

Lemma pointed_at_null : forall s m r o n, inv s m -> points m r o n -> has m 0 = true ->
  snd (run s [PointAt r 0; Number r]) = [ADone; ANumber n].
Proof.
  intros s m r o n I P Hz. destruct P as (Hr & Hf & Hp & Hn & Hpl & Hho).
  cbn [run step]. rewrite (is_ref_ok _ _ I), Hr, (i_held _ _ I), Hz. cbn [andb]. unfold set_referenced.
  assert (Hi : is_indirect s 0 = None).
  { rewrite (indirect_iff _ _ I). destruct (number_of m 0) as [k|] eqn:E; [|reflexivity]. apply (number_of_some _ _ I) in E.
    destruct (i_placed _ _ I _ _ E) as (_ & H & _). congruence. }
  rewrite Hi. cbn [Nat.eqb].
  set (s1 := with_refs s _). assert (Hir : is_ref s1 r = true) by (rewrite <- Hr, <- (is_ref_ok _ _ I); reflexivity).
  cbn [run answer_of]. rewrite Hir. assert (Hnum : number s1 r = Ok n).
  { unfold number, remembered. cbn [refs s1 with_refs]. rewrite upd_eq. cbn [target backup]. rewrite andb_false_r, (i_backup _ _ I), Hn. reflexivity. }
  rewrite Hnum. reflexivity.
Qed.

Lemma removed : forall s m r o n, inv s m -> points m r o n ->
  snd (run s [RemoveEntry n; ReleaseEntry n; Number r; Text r]) = [ABool true; ADone; ACrash; AError EGeneral].
Proof.
  intros s m r o n I P. destruct (points_target s m r o n I P) as (Ht & He & H0 & Hre & Hin).
  destruct P as (Hr & Hf & Hp & Hn & Hpl & Hho).
  cbn [run step]. rewrite Hin. set (s1 := set_holders s n false (kept (ents s n))).
  set (s2 := set_holders s1 n (in_table (ents s1 n)) false).
  assert (Hir : is_ref s2 r = true) by (rewrite <- Hr, <- (is_ref_ok _ _ I); reflexivity).
  assert (Hnum : number s2 r = Throw EGeneral).
  { rewrite (number_held s2 r o); [|exact Ht|cbn; rewrite (i_held _ _ I); exact Hho|exact H0].
    replace (entry (objs s2 o)) with (Some n) by (symmetry; exact He).
    assert (Ha : entry_alive s2 n = false).
    { unfold entry_alive, s2, set_holders. cbn [ents with_ents]. rewrite upd_eq. cbn [in_table kept]. unfold s1, set_holders. cbn [ents with_ents].
      rewrite upd_eq. reflexivity. }
    rewrite Ha. reflexivity. }
  rewrite Hir. cbn [run]. rewrite Hir, Hnum. reflexivity.
Qed.

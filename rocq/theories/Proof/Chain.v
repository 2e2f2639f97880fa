(** Facts about the chain of sections. *)
From Coq Require Import List NArith ZArith Bool Lia Relations Operators_Properties String.
From Verif.Model Require Import Base Char Numbers SMap Object Token Parser Arith Xref FileWrite Chain.
From Verif.Spec Require Import Chain.
From Verif.Proof Require Import Tac Token Writer.
Import ListNotations.
Local Open Scope N_scope.

Lemma xfind_some : forall n l e, xfind n l = Some e -> In e l /\ xnum e = n.
Proof. intros n l e H. apply find_some in H. destruct H as [H1 H2]. apply N.eqb_eq in H2. auto. Qed.
Lemma xfind_none : forall n l, xfind n l = None <-> forall x, In x l -> xnum x <> n.
Proof.
  intros n l. split.
  - intros H x Hx E. unfold xfind in H. assert (G := find_none _ _ H x Hx). cbn in G. lia.
  - intros H. destruct (xfind n l) eqn:E; [|reflexivity]. apply xfind_some in E. destruct E as [E1 E2]. exfalso. eapply H; eauto.
Qed.
Lemma xfind_split : forall n l e, xfind n l = Some e <->
  exists before after, l = before ++ e :: after /\ xnum e = n /\ forall x, In x before -> xnum x <> n.
Proof.
  intros n. induction l as [|a l IH]; intros e; cbn [xfind find].
  - split; [discriminate|]. intros (b & t & E & _). destruct b; discriminate.
  - destruct (xnum a =? n) eqn:Ea.
    + split.
      * intros H. inversion H; subst. exists [], l. split; [reflexivity|split; [lia|intros x []]].
      * intros (b & t & E & He & Hb). destruct b as [|b0 b]; inversion E; subst; [reflexivity|]. exfalso. apply (Hb b0); [left; reflexivity|lia].
    + fold (xfind n l). rewrite IH. split.
      * intros (b & t & E & He & Hb). exists (a :: b), t. subst l. split; [reflexivity|split; [exact He|]].
        intros x [<-|Hx]; [lia|apply Hb; exact Hx].
      * intros (b & t & E & He & Hb). destruct b as [|b0 b]; inversion E; subst; [lia|]. exists b, t. split; [reflexivity|split; [reflexivity|]].
        intros x Hx. apply Hb. right. exact Hx.
Qed.
Lemma sec_find_entry : forall s n e, sec_find n s = Some e <-> entry_of s n e.
Proof.
  intros s n e. unfold sec_find, entry_of. destruct (xfind n (s_entries s)) as [e1|] eqn:E1.
  - split.
    + intros H. inversion H; subst. left. apply xfind_split. exact E1.
    + intros [H|(H & _)]; [apply xfind_split in H; congruence|]. apply xfind_none in H. congruence.
  - assert (E1' := proj1 (xfind_none _ _) E1). destruct (s_kind s) eqn:Ek.
    1: destruct (s_hybrid s) as [h|] eqn:Eh.
    1: split; [intros H; right; apply xfind_split in H; destruct H as (b & t & H); split; [exact E1'|split; [reflexivity|exists h, b, t; tauto]]|].
    1: intros [H|(_ & _ & h' & b & t & E & H)]; [apply xfind_split in H; congruence|]; inversion E; subst h'; apply xfind_split; eauto.
    all: split; [discriminate|]; intros [H|(_ & Hk & h' & b & t & E & _)]; [apply xfind_split in H|]; congruence.
Qed.
Lemma sec_contains_lists : forall n s, sec_contains n s = true <-> exists e, lists s e /\ xnum e = n.
Proof.
  intros n s. unfold sec_contains, sec_find, lists. destruct (xfind n (s_entries s)) as [e|] eqn:E.
  - apply xfind_some in E. destruct E. split; [intros _; eauto|reflexivity].
  - assert (E' := proj1 (xfind_none _ _) E). destruct (s_kind s) eqn:Ek.
    1: destruct (s_hybrid s) as [h|] eqn:Eh.
    1: destruct (xfind n h) as [e|] eqn:Eh'.
    + apply xfind_some in Eh'. destruct Eh' as [H1 H2]. split; [intros _; exists e; eauto 6|reflexivity].
    + split; [discriminate|]. intros (e & [H|(_ & h' & Hh & H)] & He); [exfalso; eapply E'; eauto|].
      inversion Hh; subst h'. exfalso. eapply (proj1 (xfind_none _ _)); eauto.
    + split; [discriminate|]. intros (e & [H|(_ & h' & Hh & H)] & He); [exfalso; eapply E'; eauto|discriminate].
    + split; [discriminate|]. intros (e & [H|(Hk & _)] & He); [exfalso; eapply E'; eauto|discriminate].
    + split; [discriminate|]. intros (e & [H|(Hk & _)] & He); [exfalso; eapply E'; eauto|discriminate].
Qed.
Lemma contains_present : forall n c, existsb (sec_contains n) c = true <-> present n c.
Proof.
  intros n c. rewrite existsb_exists. unfold present. split.
  - intros (s & Hs & H). apply sec_contains_lists in H. destruct H as (e & H). exists s, e. tauto.
  - intros (s & e & Hs & H & He). exists s. split; [exact Hs|]. apply sec_contains_lists. eauto.
Qed.

Lemma xfind_xadd_same : forall e l, xfind (xnum e) (xadd e l) = Some e.
Proof.
  intros e. induction l as [|x l IH]; cbn [xadd]; unfold xfind in *; cbn [find]; [rewrite N.eqb_refl; reflexivity|].
  cif; [cbn [find]; rewrite N.eqb_refl; reflexivity|]. cif; cbn [find]; [rewrite N.eqb_refl; reflexivity|].
  replace (xnum x =? xnum e) with false by lia. exact IH.
Qed.
Lemma xfind_xadd_other : forall n e l, xnum e <> n -> xfind n (xadd e l) = xfind n l.
Proof.
  intros n e l Hn. induction l as [|x l IH]; cbn [xadd]; unfold xfind in *; cbn [find].
  - replace (xnum e =? n) with false by lia. reflexivity.
  - cif; [cbn [find]; replace (xnum e =? n) with false by lia; reflexivity|].
    cif; cbn [find].
    + replace (xnum e =? n) with false by lia. replace (xnum x =? n) with false by lia. reflexivity.
    + rewrite IH. reflexivity.
Qed.
Lemma sec_find_with_same : forall s e, sec_find (xnum e) (with_entries s (xadd e (s_entries s))) = Some e.
Proof. intros s e. unfold sec_find, with_entries. cbn [s_entries]. rewrite xfind_xadd_same. reflexivity. Qed.
Lemma sec_find_with_other : forall n s e, xnum e <> n -> sec_find n (with_entries s (xadd e (s_entries s))) = sec_find n s.
Proof. intros n s e H. unfold sec_find, with_entries. cbn [s_entries s_kind s_hybrid]. rewrite xfind_xadd_other by exact H. reflexivity. Qed.

(** ** allocation *)
Lemma allocate_from_ok : forall f i c n c', allocate_from f i c = Ok (n, c') ->
  i <= n < max_u64 /\ ~ present n c /\ (forall k, i <= k < n -> present k c) /\
  exists s t, c = s :: t /\ c' = with_entries s (xadd (new_entry n) (s_entries s)) :: t.
Proof.
  induction f as [|f IH]; intros i c n c' H; cbn [allocate_from] in H; cif_in H; try discriminate.
  destruct (existsb (sec_contains i) c) eqn:E.
  - apply IH in H. destruct H as (H1 & H2 & H3 & H4). apply contains_present in E.
    split; [lia|split; [exact H2|split; [|exact H4]]]. intros k Hk.
    destruct (N.eq_dec k i) as [->|]; [exact E|]. apply H3. lia.
  - destruct c as [|s t]; [discriminate|]. inversion H; subst.
    split; [lia|]. split; [|split; [intros k Hk; lia|exists s, t; auto]].
    rewrite <- contains_present, E. discriminate.
Qed.
Definition all_numbers (c : chain) : list N :=
  flat_map (fun s => map xnum (s_entries s ++ match s_hybrid s with Some h => h | None => [] end)) c.
Lemma all_numbers_length : forall c, List.length (all_numbers c) = chain_size c.
Proof.
  unfold all_numbers. induction c as [|s c IH]; cbn [flat_map chain_size fold_right]; [reflexivity|].
  rewrite app_length, IH, map_length, app_length. unfold sec_size, chain_size. destruct (s_hybrid s); reflexivity.
Qed.
Lemma present_in_all : forall n c, present n c -> In n (all_numbers c).
Proof.
  intros n c (s & e & Hs & Hl & He). apply in_flat_map. exists s. split; [exact Hs|]. subst n. apply in_map. apply in_or_app.
  destruct Hl as [H|(_ & h & Hh & H)]; [left; exact H|right; rewrite Hh; exact H].
Qed.
Lemma allocate_from_other : forall f i c,
  (allocate_from f i c = NoFuel -> i + N.of_nat f < max_u64 /\ forall k, i <= k < i + N.of_nat f -> present k c) /\
  (forall e, allocate_from f i c = Throw e -> e = EGeneral /\ forall k, i <= k < max_u64 -> present k c) /\
  (allocate_from f i c = Undef -> c = [] /\ i < max_u64).
Proof.
  induction f as [|f IH]; intros i c; cbn [allocate_from]; (destruct (max_u64 <=? i) eqn:E0; [repeat split; intros; try discriminate; try (inversion H; auto; fail); try lia|]).
  - split; [intros _; split; [lia|intros; lia]|split; discriminate].
  - destruct (existsb (sec_contains i) c) eqn:E.
    + apply contains_present in E. destruct (IH (i + 1) c) as (I1 & I2 & I3). repeat split.
      * intros; destruct (I1 H); lia.
      * intros k Hk. destruct (I1 H) as [_ I]. destruct (N.eq_dec k i) as [->|]; [exact E|]. apply I. lia.
      * apply (I2 _ H).
      * intros k Hk. destruct (N.eq_dec k i) as [->|]; [exact E|]. apply (I2 _ H). lia.
      * apply (I3 H).
      * lia.
    + destruct c as [|s t]; (split; [discriminate|split; [discriminate|]]); intros H; [split; [reflexivity|lia]|discriminate].
Qed.
Lemma allocate_from_nofuel : forall i c, allocate_from (S (chain_size c)) i c <> NoFuel.
Proof.
  intros i c H. apply allocate_from_other in H. destruct H as [_ H].
  assert (ND : NoDup (nrange i (S (chain_size c)))).
  { clear H. generalize (S (chain_size c)) as k. intros k. revert i. induction k as [|k IH]; intros i; cbn [nrange]; constructor; [|apply IH].
    assert (G : forall k j x, In x (nrange j k) -> j <= x).
    { clear. induction k as [|k IH]; intros j x Hx; cbn [nrange] in Hx; [destruct Hx|]. destruct Hx as [<-|Hx]; [lia|]. apply IH in Hx. lia. }
    intros Hin. apply G in Hin. lia. }
  assert (IN : incl (nrange i (S (chain_size c))) (all_numbers c)).
  { intros x Hx. apply present_in_all, H.
    assert (G : forall k j x, In x (nrange j k) -> j <= x < j + N.of_nat k).
    { clear. induction k as [|k IH]; intros j x Hx; cbn [nrange] in Hx; [destruct Hx|]. destruct Hx as [<-|Hx]; [lia|]. apply IH in Hx. lia. }
    apply G in Hx. exact Hx. }
  assert (L := NoDup_incl_length ND IN). rewrite all_numbers_length in L.
  assert (G : forall k j, List.length (nrange j k) = k) by (clear; induction k as [|k IH]; intros j; cbn [nrange List.length]; [reflexivity|rewrite IH; reflexivity]).
  rewrite G in L. lia.
Qed.

(** chain the allocation works on *)
Definition start_chain (st : alloc_state) : chain := match a_chain st with Some c => c | None => [empty_table] end.
Lemma present_start : forall n st, present n (start_chain st) <-> present_in n st.
Proof.
  intros n st. unfold start_chain, present_in. destruct (a_chain st) as [c|].
  - split; [eauto|intros (c' & E & H); inversion E; subst; exact H].
  - split; [|intros (c' & E & _); discriminate]. intros (s & e & [<-|[]] & [[]|(_ & h & E & _)] & _). discriminate.
Qed.
Lemma allocate_ok : forall st n st', allocate st = Ok (n, st') ->
  exists c', allocate_from (S (chain_size (start_chain st))) (a_next st) (start_chain st) = Ok (n, c') /\
             st' = {| a_next := n + 1; a_chain := Some c' |}.
Proof.
  intros st n st' H. unfold allocate in H. apply rbind_ok in H. destruct H as ([i c'] & H & E). inversion E; subst. exists c'. auto.
Qed.

Lemma chain_entry_first_same : forall s t e, chain_entry (xnum e) (xgen e) (with_entries s (xadd e (s_entries s)) :: t) = Some e.
Proof. intros s t e. cbn [chain_entry]. rewrite sec_find_with_same, N.eqb_refl. reflexivity. Qed.
Lemma chain_entry_first_other : forall k g s t e, xnum e <> k ->
  chain_entry k g (with_entries s (xadd e (s_entries s)) :: t) = chain_entry k g (s :: t).
Proof. intros k g s t e H. cbn [chain_entry]. rewrite sec_find_with_other by exact H. reflexivity. Qed.

Lemma in_xadd : forall x e l, In x (xadd e l) -> x = e \/ In x l.
Proof.
  intros x e. induction l as [|a l IH]; cbn [xadd]; [intros [<-|[]]; auto|].
  cif; [intros [<-|H]; auto|]. cif; [intros [<-|H]; [auto|right; right; exact H]|].
  intros [<-|H]; [right; left; reflexivity|]. destruct (IH H); [auto|right; right; assumption].
Qed.
Lemma xadd_keeps : forall x e l, In x l -> exists y, In y (xadd e l) /\ xnum y = xnum x.
Proof.
  intros x e. induction l as [|a l IH]; [intros []|]. intros [<-|H]; cbn [xadd].
  - cif; [exists a; cbn; auto|]. cif; [exists e; cbn; split; [auto|lia]|exists a; cbn; auto].
  - cif; [exists x; cbn; auto|]. cif; [exists x; cbn; auto|]. destruct (IH H) as (y & Hy & E). exists y. cbn. auto.
Qed.

Lemma present_with : forall n s t e, present n (s :: t) -> present n (with_entries s (xadd e (s_entries s)) :: t).
Proof.
  intros n s t e (s' & x & [<-|Hs] & Hl & Hx).
  - destruct Hl as [H|(Hk & h & Hh & H)].
    + destruct (xadd_keeps x e _ H) as (y & Hy & Ey). exists (with_entries s (xadd e (s_entries s))), y.
      split; [left; reflexivity|split; [left; exact Hy|congruence]].
    + exists (with_entries s (xadd e (s_entries s))), x. split; [left; reflexivity|split; [right; split; [exact Hk|exists h; auto]|exact Hx]].
  - exists s', x. split; [right; exact Hs|auto].
Qed.
Lemma allocate_keeps : forall st n st', allocate st = Ok (n, st') -> forall k, present_in k st -> present_in k st'.
Proof.
  intros st n st' H k Hk. apply allocate_ok in H. destruct H as (c' & H & ->). apply present_start in Hk.
  apply allocate_from_ok in H. destruct H as (_ & _ & _ & s & t & E & ->). exists (with_entries s (xadd (new_entry n) (s_entries s)) :: t).
  split; [reflexivity|]. apply present_with. rewrite <- E. exact Hk.
Qed.
Lemma release_keeps : forall n g c k, present k c -> present k (fst (release_entry n g c)).
Proof.
  intros n g. induction c as [|s t IH]; intros k Hk; [exact Hk|]. cbn [release_entry].
  destruct (release_entry n g t) as [t' b] eqn:E. cbn [fst] in IH.
  assert (G : present k (s :: t')).
  { destruct Hk as (s' & x & [<-|Hs] & H); [exists s, x; split; [left; reflexivity|exact H]|].
    destruct (IH k) as (s2 & x2 & Hs2 & H2); [exists s', x; split; [exact Hs|exact H]|]. exists s2, x2. split; [right; exact Hs2|exact H2]. }
  destruct (sec_find n s) as [e|]; [|exact G]. destruct (xgen e =? g); [|exact G].
  destruct (xfind n (s_entries s)); [|exact Hk]. cbn [fst]. apply present_with. exact Hk.
Qed.

(** a release that succeeds replaces the entry of the first section that has the object *)
Lemma release_split : forall n g c c', release_entry n g c = (c', true) ->
  exists newer s older e, c = newer ++ s :: older /\ sec_find n s = Some e /\ xgen e = g /\
    c' = newer ++ with_entries s (xadd {| xnum := n; xgen := 0; xdata := KFree 0 |} (s_entries s)) :: older /\
    (forall s' e', In s' newer -> sec_find n s' = Some e' -> xgen e' <> g).
Proof.
  intros n g. induction c as [|s t IH]; intros c' H; [discriminate|]. cbn [release_entry] in H.
  destruct (release_entry n g t) as [t' b] eqn:E.
  assert (Next : (forall e', sec_find n s = Some e' -> xgen e' <> g) -> (s :: t', b) = (c', true) ->
    exists newer s0 older e, s :: t = newer ++ s0 :: older /\ sec_find n s0 = Some e /\ xgen e = g /\
      c' = newer ++ with_entries s0 (xadd {| xnum := n; xgen := 0; xdata := KFree 0 |} (s_entries s0)) :: older /\
      (forall s' e', In s' newer -> sec_find n s' = Some e' -> xgen e' <> g)).
  { intros Hs Q. injection Q as <- ->. destruct (IH _ eq_refl) as (a & s0 & o & e & -> & H1 & H2 & -> & H3).
    exists (s :: a), s0, o, e. repeat split; auto. intros s' e' [<-|Hi]; [apply Hs|apply H3; exact Hi]. }
  destruct (sec_find n s) as [e|] eqn:Es; [|apply Next; [discriminate|exact H]].
  destruct (xgen e =? g) eqn:Eg; [|apply Next; [intros e' Q; injection Q as <-; lia|exact H]].
  destruct (xfind n (s_entries s)); [|discriminate]. injection H as <-.
  exists [], s, t, e. repeat split; auto; try lia. all: intros s' e' [].
Qed.
Lemma chain_entry_app_skip : forall n g a c, (forall s e, In s a -> sec_find n s = Some e -> xgen e <> g) ->
  chain_entry n g (a ++ c) = chain_entry n g c.
Proof.
  intros n g. induction a as [|s a IH]; intros c H; [reflexivity|]. cbn [app chain_entry].
  rewrite IH by (intros; eapply H; [right; eassumption|assumption]).
  destruct (sec_find n s) as [e|] eqn:E; [|reflexivity]. destruct (xgen e =? g) eqn:Eg; [|reflexivity].
  exfalso. apply (H s e); [left; reflexivity|exact E|lia].
Qed.
Lemma chain_entry_app : forall n g a c c', chain_entry n g c = chain_entry n g c' -> chain_entry n g (a ++ c) = chain_entry n g (a ++ c').
Proof.
  intros n g a c c' H. induction a as [|s a IH]; [exact H|]. cbn [app chain_entry]. rewrite IH. reflexivity.
Qed.

(** ** the chain of Prev pointers *)
Lemma find_int_ok : forall k m p, find_int k m = Ok p -> sm_find k m = Some (OInt p).
Proof. intros k m p H. unfold find_int in H. destruct (sm_find k m) as [[]|]; cbn in H; try discriminate. inversion H; reflexivity. Qed.

Section Reading.
Variable d : dictionary.

Lemma expect_skip_nofuel : forall ty s, expect_skip d ty s <> NoFuel.
Proof. intros ty s. unfold expect_skip. apply rbind_nofuel; [apply read_token_skip_nofuel|intros [? ?] _]. cif; discriminate. Qed.
Lemma peek_nofuel : forall s, peek_type_skip d s <> NoFuel.
Proof. intros s. unfold peek_type_skip. apply rbind_nofuel; [apply read_token_skip_nofuel|intros [? ?] _; discriminate]. Qed.
Lemma expect_skip_len : forall ty s v r, ty <> TyEof -> expect_skip d ty s = Ok (v, r) -> (List.length r < List.length s)%nat.
Proof.
  intros ty s v r Ht H. unfold expect_skip in H. apply rbind_ok in H. destruct H as ([tk r1] & H & E). cif_in E; [|discriminate].
  inversion E; subst. apply read_token_skip_length in H. destruct H as [H|[H _]]; [exact H|].
  exfalso. rewrite H in Heqb. destruct ty; try discriminate; congruence.
Qed.
Lemma to_u16_nofuel : forall z, to_u16 z <> NoFuel.
Proof. intros z. unfold to_u16. cif; [discriminate|cif; discriminate]. Qed.
Lemma to_u64_nofuel : forall z, to_u64 z <> NoFuel.
Proof. intros z. unfold to_u64. cif; discriminate. Qed.
Lemma add_u64_nofuel : forall a b, add_u64 a b <> NoFuel.
Proof.
  intros a b. unfold add_u64, safe_addition, arith. apply rbind_nofuel; [|discriminate]. apply rbind_nofuel; [cif; [cif|]; discriminate|intros sum _].
  repeat cif; discriminate.
Qed.
Lemma add_u64_int_nofuel : forall a b, add_u64_int a b <> NoFuel.
Proof.
  intros a b. unfold add_u64_int, safe_addition, arith. apply rbind_nofuel; [|discriminate]. apply rbind_nofuel; [cif; [cif|]; discriminate|intros sum _].
  repeat cif; discriminate.
Qed.
Lemma stoull_nofuel : forall s, stoull s <> NoFuel.
Proof. intros s. unfold stoull. destruct (strtol 10 s); [cif; discriminate|discriminate]. Qed.

Lemma read_table_entry_nofuel : forall n s, read_table_entry d n s <> NoFuel.
Proof.
  intros n s. unfold read_table_entry. apply rbind_nofuel; [apply expect_skip_nofuel|intros [? ?] _].
  apply rbind_nofuel; [apply expect_skip_nofuel|intros [? ?] _]. apply rbind_nofuel; [apply stoll_nofuel|intros ? _].
  apply rbind_nofuel; [apply stoll_nofuel|intros ? _]. apply rbind_nofuel; [apply read_token_skip_nofuel|intros [? ?] _].
  cif; [apply rbind_nofuel; [apply to_u16_nofuel|discriminate]|]. cif; [|discriminate]. apply rbind_nofuel; [apply to_u16_nofuel|discriminate].
Qed.
Lemma read_table_entry_len : forall n s e r, read_table_entry d n s = Ok (e, r) -> (List.length r < List.length s)%nat.
Proof.
  intros n s e r H. unfold read_table_entry in H. apply rbind_ok in H; destruct H as ([ov r1] & H1 & H).
  apply expect_skip_len in H1; [|discriminate]. apply rbind_ok in H; destruct H as ([gv r2] & H2 & H). apply expect_skip_len in H2; [|discriminate].
  apply rbind_ok in H; destruct H as (? & _ & H). apply rbind_ok in H; destruct H as (? & _ & H).
  apply rbind_ok in H; destruct H as ([tk r3] & H3 & H). apply read_token_skip_length in H3.
  assert (L : (List.length r3 <= List.length r2)%nat) by (destruct H3 as [H3|[_ ->]]; cbn; lia).
  cif_in H; [|cif_in H; [|discriminate]]; apply rbind_ok in H; destruct H as (? & _ & H); inversion H; subst; lia.
Qed.
Lemma read_rows_nofuel : forall f base i size s t, (List.length s < f)%nat -> read_rows d f base i size s t <> NoFuel.
Proof.
  induction f as [|f IH]; intros base i size s t Hf; [lia|]. cbn [read_rows]. cif; [discriminate|].
  apply rbind_nofuel; [apply add_u64_nofuel|intros num _]. apply rbind_nofuel; [apply read_table_entry_nofuel|intros [e r] H].
  apply read_table_entry_len in H. apply rbind_nofuel; [unfold table_add; destruct (xdata e); discriminate|intros t' _]. apply IH. lia.
Qed.
Lemma read_rows_len : forall f base i size s t t' r, read_rows d f base i size s t = Ok (t', r) -> (List.length r <= List.length s)%nat.
Proof.
  induction f as [|f IH]; intros base i size s t t' r H; cbn [read_rows] in H; (cif_in H; [inversion H; subst; lia|]); [discriminate|].
  apply rbind_ok in H; destruct H as (num & _ & H). apply rbind_ok in H; destruct H as ([e r1] & H1 & H).
  apply read_table_entry_len in H1. apply rbind_ok in H; destruct H as (t1 & _ & H). apply IH in H. lia.
Qed.
Lemma read_subsections_nofuel : forall f s t, (List.length s < f)%nat -> read_subsections d f s t <> NoFuel.
Proof.
  induction f as [|f IH]; intros s t Hf; [lia|]. cbn [read_subsections]. apply rbind_nofuel; [apply peek_nofuel|intros ty _].
  cif; [discriminate|]. apply rbind_nofuel; [apply expect_skip_nofuel|intros [? r1] H1]. apply expect_skip_len in H1; [|discriminate].
  apply rbind_nofuel; [apply expect_skip_nofuel|intros [? r2] H2]. apply expect_skip_len in H2; [|discriminate].
  apply rbind_nofuel; [apply stoull_nofuel|intros ? _]. apply rbind_nofuel; [apply stoull_nofuel|intros ? _].
  apply rbind_nofuel; [apply read_rows_nofuel; lia|intros [t' r3] H3]. apply read_rows_len in H3. apply IH. lia.
Qed.

End Reading.

Section Reading2.
Variable d : dictionary.
Variable rl : N -> N -> res Z.
Hypothesis rl_ends : forall n g, rl n g <> NoFuel.
Lemma read_xref_table_nofuel : forall s, read_xref_table d rl s <> NoFuel.
Proof.
  intros s. unfold read_xref_table. apply rbind_nofuel; [apply expect_skip_nofuel|intros [? r1] _].
  apply rbind_nofuel; [apply read_subsections_nofuel; lia|intros [t r2] _]. apply rbind_nofuel; [apply expect_skip_nofuel|intros [? r3] _].
  apply rbind_nofuel; [apply parse_direct_total; exact rl_ends|intros [o r4] _]. destruct o; discriminate.
Qed.
Lemma read_indirect_nofuel : forall s, read_indirect_object d rl s <> NoFuel.
Proof.
  intros s. unfold read_indirect_object. do 3 (apply rbind_nofuel; [apply expect_skip_nofuel|intros [? ?] _]).
  apply rbind_nofuel; [apply parse_direct_total; exact rl_ends|intros [o r4] _]. apply rbind_nofuel; [apply expect_skip_nofuel|intros [? ?] _].
  do 2 (apply rbind_nofuel; [apply stoll_nofuel|intros ? _]). apply rbind_nofuel; [apply to_u64_nofuel|intros ? _].
  apply rbind_nofuel; [apply to_u16_nofuel|discriminate].
Qed.

End Reading2.

Section Reading3.
Lemma int_value_nofuel : forall o, int_value o <> NoFuel.
Proof. intros []; discriminate. Qed.
Lemma int_values_nofuel : forall l, int_values l <> NoFuel.
Proof.
  induction l as [|o l IH]; cbn [int_values]; [discriminate|]. apply rbind_nofuel; [apply int_value_nofuel|intros z _].
  apply rbind_nofuel; [exact IH|discriminate].
Qed.
Lemma find_int_nofuel : forall k m, find_int k m <> NoFuel.
Proof. intros k m. unfold find_int. destruct (sm_find k m); [apply int_value_nofuel|discriminate]. Qed.
Lemma find_ints_nofuel : forall k m, find_ints k m <> NoFuel.
Proof. intros k m. unfold find_ints. destruct (sm_find k m) as [[]|]; try discriminate. apply int_values_nofuel. Qed.

Lemma read_field_nofuel : forall n acc s, read_field n acc s <> NoFuel.
Proof. induction n as [|n IH]; intros acc s; cbn [read_field]; [discriminate|]. destruct s; [discriminate|apply IH]. Qed.
Lemma read_stream_entry_nofuel : forall w a i s, read_stream_entry w a i s <> NoFuel.
Proof.
  intros [[w1 w2] w3] a i s. unfold read_stream_entry. do 3 (apply rbind_nofuel; [apply read_field_nofuel|intros [? ?] _]).
  apply rbind_nofuel; [apply add_u64_int_nofuel|intros ? _].
  cif; [apply rbind_nofuel; [apply to_u16_nofuel|discriminate]|]. cif; [apply rbind_nofuel; [apply to_u16_nofuel|discriminate]|].
  cif; [|discriminate]. apply rbind_nofuel; [apply to_u64_nofuel|discriminate].
Qed.
Lemma read_stream_rows_nofuel : forall w a n i s t, read_stream_rows w a n i s t <> NoFuel.
Proof.
  intros w a. induction n as [|n IH]; intros i s t; cbn [read_stream_rows]; [discriminate|].
  apply rbind_nofuel; [apply read_stream_entry_nofuel|intros [? ?] _]. cif; [discriminate|apply IH].
Qed.
Lemma read_stream_index_nofuel : forall w k l s t, (List.length l <= k)%nat -> read_stream_index w l s t <> NoFuel.
Proof.
  intros w. induction k as [|k IH]; intros l s t Hk; destruct l as [|a [|b l]]; try discriminate; cbn [List.length] in Hk; try lia.
  cbn [read_stream_index]. apply rbind_nofuel; [apply read_stream_rows_nofuel|intros [? ?] _]. apply IH. lia.
Qed.
Lemma parse_xref_stream_nofuel : forall w i z b, parse_xref_stream w i z b <> NoFuel.
Proof.
  intros w i z b. unfold parse_xref_stream. destruct w as [|w1 [|w2 [|w3 [|]]]]; try discriminate. eapply read_stream_index_nofuel. reflexivity.
Qed.
Variable decode : list (bytes * obj) -> bytes -> res bytes.
Hypothesis decode_ends : forall m b, decode m b <> NoFuel.
Lemma parse_stream_section_nofuel : forall c n g m b, parse_stream_section decode c n g m b <> NoFuel.
Proof.
  intros c n g m b. unfold parse_stream_section. apply rbind_nofuel; [apply find_ints_nofuel|intros w _].
  apply rbind_nofuel; [apply find_int_nofuel|intros z _]. apply rbind_nofuel; [cif; [apply rbind_nofuel; [apply find_ints_nofuel|discriminate]|discriminate]|intros ix _].
  apply rbind_nofuel; [apply decode_ends|intros body _]. apply rbind_nofuel; [apply parse_xref_stream_nofuel|intros es _].
  cif; [discriminate|]. destruct (chain_entry n g _) as [e|]; [destruct (xdata e); discriminate|discriminate].
Qed.
End Reading3.

Section Prev.
Variable d : dictionary.
Variable decode : list (bytes * obj) -> bytes -> res bytes.
Hypothesis decode_ends : forall m b, decode m b <> NoFuel.
Lemma read_section_nofuel : forall file c o, read_section d decode file c o <> NoFuel.
Proof.
  intros file c o. unfold read_section. assert (R : forall n g, opening_length n g <> NoFuel) by discriminate.
  apply rbind_nofuel; [apply peek_nofuel|intros ty _]. cif.
  - apply rbind_nofuel; [apply read_xref_table_nofuel; exact R|intros [[t x] ?] _]. destruct x; discriminate.
  - apply rbind_nofuel; [apply read_indirect_nofuel; exact R|intros [[[n g] x] ?] _].
    destruct x; try discriminate. apply parse_stream_section_nofuel. exact decode_ends.
Qed.
Lemma read_section_range : forall file c o r, read_section d decode file c o = Ok r -> (0 <= o < Z.of_nat (List.length file))%Z.
Proof.
  intros file c o r H. unfold read_section, at_position in H.
  destruct ((o <? 0)%Z || (Z.of_nat (List.length file) <=? o)%Z) eqn:E; [|lia]. exfalso.
  cbn in H. discriminate.
Qed.
Lemma read_hybrids_nofuel : forall file rest done, read_hybrids d decode file done rest <> NoFuel.
Proof.
  intros file. induction rest as [|s t IH]; intros done; cbn [read_hybrids]; [discriminate|].
  destruct (s_kind s); try apply IH. cif; [|apply IH]. apply rbind_nofuel; [apply find_int_nofuel|intros off _].
  apply rbind_nofuel; [apply read_section_nofuel|intros [c1 h] _]. destruct (s_kind h); try discriminate.
  apply rbind_nofuel; [apply IH|discriminate].
Qed.

Fixpoint linked (R : Z -> Z -> Prop) (l : list Z) : Prop :=
  match l with
  | x :: ((y :: _) as t) => R x y /\ linked R t
  | _ => True
  end.
Lemma read_sections_trace : forall f file c o, read_sections d decode f file c o = NoFuel ->
  exists l, List.length l = f /\ Forall (fun x => (0 <= x < Z.of_nat (List.length file))%Z) l /\
    linked (prev_of d decode file) l /\ (match l with [] => True | x :: _ => x = o end).
Proof.
  induction f as [|f IH]; intros file c o H; [exists []; cbn; auto|]. cbn [read_sections] in H.
  destruct (read_section d decode file c o) as [[c1 sec]| | |] eqn:E; cbn [rbind] in H; try discriminate;
    [|exfalso; eapply read_section_nofuel; exact E].
  assert (R := read_section_range _ _ _ _ E).
  destruct (sm_contains (str "Prev") (s_trailer sec)); [|discriminate].
  destruct (find_int (str "Prev") (s_trailer sec)) as [p| | |] eqn:Ep; cbn [rbind] in H; try discriminate;
    [|exfalso; eapply find_int_nofuel; exact Ep].
  apply IH in H. destruct H as (l & Hl & Hf & Hk & Hh). exists (o :: l). cbn [List.length]. split; [lia|]. split; [constructor; assumption|].
  split; [|reflexivity]. destruct l as [|x l]; [exact I|]. subst x. split; [|exact Hk].
  exists c, c1, sec. split; [exact E|]. apply find_int_ok. exact Ep.
Qed.
Lemma linked_app : forall R a b, linked R (a ++ b) -> linked R b.
Proof.
  intros R. induction a as [|x a IH]; intros b H; [exact H|]. apply IH. cbn [app] in H. destruct (a ++ b); [exact I|]. exact (proj2 H).
Qed.
Lemma linked_path : forall R a x b, linked R (x :: a ++ [b]) -> clos_trans Z R x b.
Proof.
  intros R. induction a as [|y a IH]; intros x b H.
  - cbn in H. apply t_step. tauto.
  - cbn [app] in H. destruct H as [H1 H2]. apply IH in H2. eapply t_trans; [apply t_step; exact H1|exact H2].
Qed.
Lemma linked_front : forall R a b, linked R (a ++ b) -> linked R a.
Proof.
  intros R. induction a as [|x a IH]; intros b H; [exact I|]. destruct a as [|y a]; [exact I|].
  cbn [app] in H. destruct H as [H1 H2]. split; [exact H1|]. apply (IH b). exact H2.
Qed.
Lemma repeats : forall l : list Z, NoDup l \/ exists x a b c, l = a ++ x :: b ++ x :: c.
Proof.
  induction l as [|x l IH]; [left; constructor|]. destruct (in_dec Z.eq_dec x l) as [H|H].
  - right. apply in_split in H. destruct H as (b & c & ->). exists x, [], b, c. reflexivity.
  - destruct IH as [IH|(y & a & b & c & ->)]; [left; constructor; assumption|]. right. exists y, (x :: a), b, c. reflexivity.
Qed.
Lemma trans_refl : forall (R : Z -> Z -> Prop) x y, clos_trans Z R x y -> clos_refl_trans Z R x y.
Proof. intros R x y H. induction H; [apply rt_step; assumption|eapply rt_trans; eassumption]. Qed.
Lemma read_sections_cycle : forall file c o f, (List.length file < f)%nat -> read_sections d decode f file c o = NoFuel ->
  exists x, prev_path d decode file o x /\ prev_cycle d decode file x.
Proof.
  intros file c o f Hf H. apply read_sections_trace in H. destruct H as (l & Hl & Hr & Hk & Hh).
  destruct (repeats l) as [ND|(x & a & b & t & ->)].
  - exfalso. assert (IN : incl l (map Z.of_nat (seq 0 (List.length file)))).
    { intros z Hz. rewrite Forall_forall in Hr. apply Hr in Hz. apply in_map_iff. exists (Z.to_nat z). split; [lia|]. apply in_seq. lia. }
    assert (L := NoDup_incl_length ND IN). rewrite map_length, seq_length in L. lia.
  - exists x. split.
    + destruct a as [|y a]; cbn [app] in Hh; subst; [apply rt_refl|]. unfold prev_path.
      apply trans_refl. apply (linked_path _ a). apply (linked_front _ _ (b ++ x :: t)).
      cbn [app]. rewrite <- app_assoc. exact Hk.
    + apply (linked_path _ b). apply (linked_front _ _ t). cbn [app]. rewrite <- app_assoc. apply (linked_app _ a). exact Hk.
Qed.
End Prev.

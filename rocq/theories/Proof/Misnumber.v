(** Lemmas about looking up objects in misnumbered tables. *)
From Coq Require Import List NArith ZArith Bool Permutation Sorted Lia.
From Verif.Model Require Import Base Object Misnumber.
From Verif.Spec Require Import Misnumber.
From Verif.Proof Require Import Tac.
Import ListNotations.
Local Open Scope N_scope.

Lemma pick_slot_app : forall n t a s b,
  pick_slot n t = Some (a, s, b) -> t = a ++ s :: b /\ is_at n s = true /\ Forall (fun x => is_at n x = false) a.
Proof.
  intros n t. induction t as [ | x r IH ]; intros a s b H; cbn [pick_slot] in H; [ discriminate | ].
  destruct (is_at n x) eqn:E.
  - inversion H; subst. repeat split; auto.
  - destruct (pick_slot n r) as [ [ [ a' s' ] b' ] | ] eqn:E'; [ | discriminate ].
    inversion H; subst. destruct (IH _ _ _ eq_refl) as [ -> [ H1 H2 ] ]. repeat split; auto.
Qed.
Lemma pick_slot_none : forall n t, pick_slot n t = None -> Forall (fun x => is_at n x = false) t.
Proof.
  intros n t. induction t as [ | x r IH ]; intro H; cbn [pick_slot] in H; [ constructor | ].
  destruct (is_at n x) eqn:E; [ discriminate | ].
  destruct (pick_slot n r) as [ [ [ a' s' ] b' ] | ] eqn:E'; [ discriminate | ]. auto.
Qed.
Lemma pick_app : forall n g c c1 a s b c2,
  pick n g c = Some (c1, (a, s, b), c2) -> c = c1 ++ (a ++ s :: b) :: c2 /\ sl_num s = n /\ sl_gen s = g.
Proof.
  intros n g c. induction c as [ | t r IH ]; intros c1 a s b c2 H; cbn [pick] in H; [ discriminate | ].
  assert (Hnext : match pick n g r with Some (c1, x, c2) => Some (t :: c1, x, c2) | None => None end = Some (c1, (a, s, b), c2) ->
                  t :: r = c1 ++ (a ++ s :: b) :: c2 /\ sl_num s = n /\ sl_gen s = g).
  { intro H'. destruct (pick n g r) as [ [ [ d1 x ] d2 ] | ] eqn:E; [ | discriminate ]. inversion H'; subst.
    destruct (IH _ _ _ _ _ eq_refl) as [ -> H2 ]. auto. }
  destruct (pick_slot n t) as [ [ [ a' s' ] b' ] | ] eqn:E; auto.
  destruct (sl_gen s' =? g) eqn:Eg; auto.
  inversion H; subst. destruct (pick_slot_app _ _ _ _ _ E) as [ -> [ H1 _ ] ].
  unfold is_at in H1. apply andb_true_iff in H1. repeat split; auto; lia.
Qed.

(** in containers whose hashes are up to date *)
Definition tidy (t : table) : Prop := NoDup (map sl_num t) /\ Forall (fun s => sl_code s = sl_num s) t.
Notation asked n g := (fun x => (sl_num x =? n) && (sl_gen x =? g)).

Lemma find_none_forall : forall (A : Type) (f : A -> bool) l, Forall (fun x => f x = false) l -> find f l = None.
Proof. intros A f l H. induction H as [ | x l Hx _ IH ]; cbn [find]; auto. rewrite Hx. auto. Qed.
Lemma find_app_none : forall (A : Type) (f : A -> bool) l1 l2, find f l1 = None -> find f (l1 ++ l2) = find f l2.
Proof. intros A f l1. induction l1 as [ | x r IH ]; cbn [find app]; intros l2 H; auto. destruct (f x); [ discriminate | auto ]. Qed.

Lemma pick_find : forall n g c, Forall tidy c ->
  find (asked n g) (concat c) = match pick n g c with Some (_, (_, s, _), _) => Some s | None => None end.
Proof.
  intros n g c H. induction H as [ | t r [ Hn Hc ] _ IH ]; cbn [concat pick]; [ reflexivity | ].
  destruct (pick_slot n t) as [ [ [ a s ] b ] | ] eqn:E.
  - destruct (pick_slot_app _ _ _ _ _ E) as [ Et [ H1 H2 ] ]. unfold is_at in H1. apply andb_true_iff in H1.
    assert (Hs : sl_num s = n) by lia.
    assert (Ho : forall x, In x a \/ In x b -> sl_num x <> n).
    { intros x Hx. rewrite Et, map_app in Hn. cbn [map] in Hn. apply NoDup_remove_2 in Hn. rewrite Hs in Hn. intro Ex. apply Hn.
      apply in_or_app. destruct Hx as [ Hx | Hx ]; [ left | right ]; rewrite <- Ex; apply in_map; auto. }
    assert (Ha : find (asked n g) a = None).
    { apply find_none_forall. apply Forall_forall. intros x Hx. specialize (Ho x (or_introl Hx)).
      replace (sl_num x =? n) with false by lia. reflexivity. }
    assert (Hb : find (asked n g) b = None).
    { apply find_none_forall. apply Forall_forall. intros x Hx. specialize (Ho x (or_intror Hx)).
      replace (sl_num x =? n) with false by lia. reflexivity. }
    rewrite Et, <- app_assoc, find_app_none by auto. cbn [app find].
    replace (sl_num s =? n) with true by lia. cbn [andb].
    destruct (sl_gen s =? g) eqn:Eg; [ reflexivity | ].
    rewrite find_app_none by auto. rewrite IH. destruct (pick n g r) as [ [ [ c1 [ [ a1 s1 ] b1 ] ] c2 ] | ]; reflexivity.
  - apply pick_slot_none in E.
    rewrite find_app_none.
    + rewrite IH. destruct (pick n g r) as [ [ [ c1 [ [ a1 s1 ] b1 ] ] c2 ] | ]; reflexivity.
    + apply find_none_forall. apply Forall_forall. intros x Hx. rewrite Forall_forall in E, Hc.
      specialize (E x Hx). specialize (Hc x Hx). unfold is_at in E. rewrite Hc in E. destruct (sl_num x =? n); [ discriminate | reflexivity ].
Qed.

Section Lookup.
Variable read_at : Z -> res (N * N * obj).
Variable read_compressed : N -> N -> res obj.
Variable arrange : table -> table.
Notation load := (load read_at read_compressed).
Notation load_table := (load_table read_at read_compressed).
Notation recover := (recover read_at read_compressed arrange).
Notation lookup := (lookup read_at read_compressed arrange).
Notation lookups := (lookups read_at read_compressed arrange).
Notation refill := (refill arrange).

(** [s] is what became of the entry [s0] *)
Definition from (s0 s : slot) : Prop :=
  (sl_num s = sl_num s0 /\ sl_gen s = sl_gen s0 /\ sl_data s = sl_data s0) \/
  (exists off o, sl_data s0 = SUsed off None /\ read_at off = Ok (sl_num s, sl_gen s, o) /\ sl_data s = SUsed off (Some o)).
(** ... after it was read *)
Definition final (s0 s : slot) : Prop :=
  match sl_data s0 with
  | SUsed off _ => exists o, read_at off = Ok (sl_num s, sl_gen s, o) /\ sl_data s = SUsed off (Some o)
  | _ => sl_num s = sl_num s0 /\ sl_gen s = sl_gen s0 /\ sl_data s = sl_data s0
  end.
Definition fresh (s : slot) : Prop := forall off o, sl_data s <> SUsed off (Some o).

Lemma load_from : forall s0 s s', from s0 s -> load s = Ok s' -> from s0 s'.
Proof.
  intros s0 s s' [ [ H1 [ H2 H3 ] ] | [ off [ o [ H1 [ H2 H3 ] ] ] ] ] H; unfold Misnumber.load in H.
  - destruct (sl_data s) as [ | off [ o | ] | i j ] eqn:E.
    + inversion H; subst. left. rewrite <- H3. auto.
    + inversion H; subst. left. rewrite <- H3. auto.
    + destruct (read_at off) as [ [ [ n g ] o ] | | | ] eqn:Er; cbn [rbind] in H; try discriminate. inversion H; subst.
      right. exists off, o. cbn [sl_num sl_gen sl_data]. rewrite <- H3. auto.
    + destruct (read_compressed i j); cbn [rbind] in H; try discriminate. inversion H; subst. left. rewrite <- H3. auto.
  - rewrite H3 in H. inversion H; subst. right. exists off, o. auto.
Qed.
Lemma load_final : forall s0 s s', fresh s0 -> from s0 s -> load s = Ok s' -> final s0 s'.
Proof.
  intros s0 s s' Hf H Hl. destruct (load_from _ _ _ H Hl) as [ [ H1 [ H2 H3 ] ] | [ off [ o [ H1 [ H2 H3 ] ] ] ] ].
  - unfold final. destruct (sl_data s0) as [ | off [ o | ] | i j ] eqn:E.
    + auto.
    + exfalso. apply (Hf off o). exact E.
    + exfalso. unfold Misnumber.load in Hl. destruct (sl_data s) as [ | off' [ o' | ] | i j ] eqn:E'.
      * inversion Hl; subst. congruence.
      * inversion Hl; subst. congruence.
      * destruct (read_at off') as [ [ [ n g ] o ] | | | ]; cbn [rbind] in Hl; try discriminate. inversion Hl; subst. cbn [sl_data] in H3. discriminate.
      * destruct (read_compressed i j); cbn [rbind] in Hl; try discriminate. inversion Hl; subst. congruence.
    + auto.
  - unfold final. rewrite H1. exists o. auto.
Qed.
Lemma load_code : forall s s', load s = Ok s' -> sl_code s' = sl_code s.
Proof.
  intros s s' H. unfold Misnumber.load in H. destruct (sl_data s) as [ | off [ o | ] | i j ].
  - inversion H; auto.
  - inversion H; auto.
  - destruct (read_at off) as [ [ [ n g ] o ] | | | ]; cbn [rbind] in H; try discriminate. inversion H; auto.
  - destruct (read_compressed i j); cbn [rbind] in H; try discriminate. inversion H; auto.
Qed.
Lemma load_readable : forall s0 s, fresh s0 -> readable read_at read_compressed s0 -> from s0 s -> exists s', load s = Ok s'.
Proof.
  intros s0 s Hf Hr H. unfold Misnumber.load. unfold readable in Hr.
  destruct H as [ [ H1 [ H2 H3 ] ] | [ off [ o [ H1 [ H2 H3 ] ] ] ] ]; [ rewrite H3 | rewrite H3; eauto ].
  destruct (sl_data s0) as [ | off [ o | ] | i j ]; eauto.
  - destruct Hr as [ n [ g [ o -> ] ] ]. cbn [rbind]. eauto.
  - destruct Hr as [ o -> ]. cbn [rbind]. eauto.
Qed.

Lemma load_table_from : forall t0 t t' r, Forall2 from t0 t -> load_table t = (t', r) -> Forall2 from t0 t'.
Proof.
  intros t0 t t' r H. revert t' r. induction H as [ | s0 s t0 t Hs Ht IH ]; intros t' r E; cbn [Misnumber.load_table] in E.
  - inversion E; constructor.
  - destruct (load s) as [ s' | e | | ] eqn:El.
    + destruct (load_table t) as [ t1 r1 ] eqn:Et. inversion E; subst. constructor; eauto using load_from.
    + inversion E; subst. constructor; auto.
    + inversion E; subst. constructor; auto.
    + inversion E; subst. constructor; auto.
Qed.
Lemma load_table_readable : forall t0 t, Forall fresh t0 -> Forall (readable read_at read_compressed) t0 -> Forall2 from t0 t ->
  exists t', load_table t = (t', Ok tt) /\ Forall2 final t0 t'.
Proof.
  intros t0 t Hf Hr H. induction H as [ | s0 s t0 t Hs Ht IH ]; cbn [Misnumber.load_table].
  - eauto.
  - inversion Hf; inversion Hr; subst. destruct (load_readable s0 s) as [ s' E ]; auto. rewrite E.
    destruct IH as [ t' [ -> H' ] ]; auto. eexists. split; [ reflexivity | ]. constructor; eauto using load_final.
Qed.
Lemma load_table_ok : forall t t', load_table t = (t', Ok tt) -> forall s, In s t -> exists s', load s = Ok s'.
Proof.
  intros t. induction t as [ | x r IH ]; intros t' H s Hs; [ destruct Hs | ].
  cbn [Misnumber.load_table] in H. destruct (load x) as [ x' | e | | ] eqn:E; try (inversion H; fail).
  destruct (load_table r) as [ r' y ] eqn:Er. inversion H; subst.
  destruct Hs as [ <- | Hs ]; eauto.
Qed.

Lemma insert_in : forall t s x, In x (insert_slot t s) ->
  In x t \/ (sl_num x = sl_num s /\ sl_gen x = sl_gen s /\ sl_data x = sl_data s).
Proof.
  intros t s x H. unfold insert_slot in H. apply in_app_or in H. destruct H as [ H | [ <- | [] ] ].
  - apply filter_In in H. left. apply H.
  - right. auto.
Qed.
Lemma NoDup_filter_num : forall (f : slot -> bool) t, NoDup (map sl_num t) -> NoDup (map sl_num (filter f t)).
Proof.
  intros f t. induction t as [ | x r IH ]; intro H; cbn [filter map]; [ constructor | ]. inversion H; subst.
  destruct (f x); auto. cbn [map]. constructor; auto. intro H'. apply H2. apply in_map_iff in H'. destruct H' as [ y [ E Hy ] ].
  rewrite <- E. apply in_map. apply filter_In in Hy. apply Hy.
Qed.
Lemma insert_tidy : forall t s, tidy t -> tidy (insert_slot t s).
Proof.
  intros t s [ H1 H2 ]. split.
  - unfold insert_slot. rewrite map_app. cbn [map sl_num].
    apply (Permutation_NoDup (Permutation_cons_append _ _)). constructor.
    + intro H. apply in_map_iff in H. destruct H as [ x [ E Hx ] ]. apply filter_In in Hx. destruct Hx as [ _ Hx ]. lia.
    + apply NoDup_filter_num. auto.
  - unfold insert_slot. apply Forall_app. split.
    + apply Forall_forall. intros x Hx. apply filter_In in Hx. rewrite Forall_forall in H2. apply H2. apply Hx.
    + constructor; auto.
Qed.
Lemma insert_num : forall t s n, In n (map sl_num t) \/ n = sl_num s -> In n (map sl_num (insert_slot t s)).
Proof.
  intros t s n H. unfold insert_slot. rewrite map_app. apply in_or_app. cbn [map sl_num].
  destruct (N.eq_dec n (sl_num s)) as [ -> | Hn ]; [ right; left; auto | ]. left.
  destruct H as [ H | H ]; [ | contradiction ]. apply in_map_iff in H. destruct H as [ x [ <- Hx ] ]. apply in_map.
  apply filter_In. split; auto. lia.
Qed.
Lemma fold_insert : forall l t, tidy t ->
  tidy (fold_left insert_slot l t) /\
  (forall x, In x (fold_left insert_slot l t) ->
     In x t \/ exists s, In s l /\ sl_num x = sl_num s /\ sl_gen x = sl_gen s /\ sl_data x = sl_data s) /\
  (forall n, In n (map sl_num t) \/ In n (map sl_num l) -> In n (map sl_num (fold_left insert_slot l t))).
Proof.
  intro l. induction l as [ | s r IH ]; intros t Ht; cbn [fold_left].
  - repeat split; try apply Ht; auto. intros n [ H | [] ]; auto.
  - destruct (IH (insert_slot t s) (insert_tidy _ _ Ht)) as [ H1 [ H2 H3 ] ]. repeat split; try apply H1.
    + intros x Hx. destruct (H2 x Hx) as [ H | [ y [ Hy H ] ] ].
      * apply insert_in in H. destruct H as [ H | H ]; auto. right. exists s. split; [ left; auto | auto ].
      * right. exists y. split; [ right; auto | auto ].
    + intros n Hn. apply H3. cbn [map] in Hn. destruct Hn as [ H | [ H | H ] ]; auto; left; apply insert_num; auto.
Qed.
Lemma tidy_nil : tidy [].
Proof. split; constructor. Qed.

Hypothesis Hperm : forall t, Permutation (arrange t) t.

(** every entry stems from an entry of the file *)
Definition stems (c0 c : list table) : Prop := forall s, is_listed c s -> exists s0, is_listed c0 s0 /\ from s0 s.

Lemma stems_cons : forall c0 t c, stems c0 (t :: c) <-> (forall s, In s t -> exists s0, is_listed c0 s0 /\ from s0 s) /\ stems c0 c.
Proof.
  intros c0 t c. split.
  - intro H. split.
    + intros s Hs. apply H. exists t. split; [ left; auto | auto ].
    + intros s [ t' [ H1 H2 ] ]. apply H. exists t'. split; [ right; auto | auto ].
  - intros [ H1 H2 ] s [ t' [ [ <- | Ht ] Hs ] ]; auto. apply H2. exists t'. auto.
Qed.
Lemma load_table_stems : forall c0 t t' r, (forall s, In s t -> exists s0, is_listed c0 s0 /\ from s0 s) ->
  load_table t = (t', r) -> forall s, In s t' -> exists s0, is_listed c0 s0 /\ from s0 s.
Proof.
  intros c0 t. induction t as [ | x t IH ]; intros t' r H E s Hs; cbn [Misnumber.load_table] in E.
  - inversion E; subst. destruct Hs.
  - destruct (load x) as [ x' | e | | ] eqn:El; try (inversion E; subst; apply H; auto; fail).
    destruct (load_table t) as [ t1 r1 ] eqn:Et. inversion E; subst.
    destruct Hs as [ <- | Hs ].
    + destruct (H x (or_introl eq_refl)) as [ s0 [ H1 H2 ] ]. exists s0. split; eauto using load_from.
    + apply (IH _ _ (fun s' Hs' => H s' (or_intror Hs')) eq_refl). auto.
Qed.
Lemma refill_stems : forall c0 t, (forall s, In s t -> exists s0, is_listed c0 s0 /\ from s0 s) ->
  forall s, In s (refill t) -> exists s0, is_listed c0 s0 /\ from s0 s.
Proof.
  intros c0 t H s Hs. unfold Misnumber.refill in Hs.
  destruct (fold_insert (arrange t) [] tidy_nil) as [ _ [ H2 _ ] ]. destruct (H2 s Hs) as [ [] | [ x [ Hx [ E1 [ E2 E3 ] ] ] ] ].
  apply (Permutation_in x (Hperm t)) in Hx. destruct (H x Hx) as [ s0 [ H3 H4 ] ]. exists s0. split; auto.
  destruct H4 as [ [ F1 [ F2 F3 ] ] | [ off [ o [ F1 [ F2 F3 ] ] ] ] ].
  - left. rewrite E1, E2, E3. auto.
  - right. exists off, o. rewrite E1, E2, E3. auto.
Qed.
Lemma recover_stems : forall c0 c c' r, stems c0 c -> recover c = (c', r) -> stems c0 c'.
Proof.
  intros c0 c. induction c as [ | t c IH ]; intros c' r H E; cbn [Misnumber.recover] in E.
  - inversion E; subst. exact H.
  - apply stems_cons in H. destruct H as [ H1 H2 ].
    destruct (load_table t) as [ t' x ] eqn:Et. pose proof (load_table_stems c0 t t' x H1 Et) as H3.
    destruct x as [ [] | e | | ]; try (inversion E; subst; apply stems_cons; auto; fail).
    destruct (recover c) as [ c1 r1 ] eqn:Ec. inversion E; subst. apply stems_cons. split; eauto using refill_stems.
Qed.
Lemma stems_replace : forall c0 c1 a s s' b c2, stems c0 (c1 ++ (a ++ s :: b) :: c2) -> load s = Ok s' -> stems c0 (c1 ++ (a ++ s' :: b) :: c2).
Proof.
  intros c0 c1 a s s' b c2 H E x [ t [ Ht Hx ] ]. apply in_app_or in Ht. destruct Ht as [ Ht | [ <- | Ht ] ].
  - apply H. exists t. split; auto. apply in_or_app. auto.
  - apply in_app_or in Hx. destruct Hx as [ Hx | [ <- | Hx ] ].
    + apply H. exists (a ++ s :: b). split; apply in_or_app; auto. right. left. auto.
    + destruct (H s) as [ s0 [ H1 H2 ] ]. { exists (a ++ s :: b). split; apply in_or_app; right; left; auto. }
      exists s0. split; eauto using load_from.
    + apply H. exists (a ++ s :: b). split; apply in_or_app; right; [ left | right ]; auto.
  - apply H. exists t. split; auto. apply in_or_app. right. right. auto.
Qed.
Lemma lookup_stems : forall c0 c n g, stems c0 c -> stems c0 (fst (lookup c n g)).
Proof.
  intros c0 c n g H. unfold Misnumber.lookup. destruct (pick n g c) as [ [ [ c1 [ [ a s ] b ] ] c2 ] | ] eqn:Ep; [ | exact H ].
  destruct (pick_app _ _ _ _ _ _ _ _ Ep) as [ Ec _ ].
  destruct (sl_data s) as [ | off l | i j ]; try exact H.
  destruct (load s) as [ s' | e | | ] eqn:El; try exact H.
  assert (H' : stems c0 (c1 ++ (a ++ s' :: b) :: c2)) by (rewrite Ec in H; eapply stems_replace; eauto).
  cif; [ exact H' | ].
  destruct (recover (c1 ++ (a ++ s' :: b) :: c2)) as [ c3 x ] eqn:Er. pose proof (recover_stems _ _ _ _ H' Er) as H3.
  destruct x as [ [] | e | | ]; try exact H3.
  destruct (pick n g c3) as [ [ [ d1 [ [ a3 s3 ] b3 ] ] d2 ] | ]; [ destruct (sl_data s3) | ]; exact H3.
Qed.
Lemma lookups_stems : forall c0 l c, stems c0 c -> stems c0 (lookups c l).
Proof.
  intros c0 l. induction l as [ | [ n g ] l IH ]; intros c H; cbn [Misnumber.lookups]; auto. apply IH. apply lookup_stems. auto.
Qed.
Lemma stems_refl : forall c, stems c c.
Proof. intros c s H. exists s. split; auto. left. auto. Qed.

Lemma opened_fresh : forall c s, opened c -> is_listed c s -> fresh s.
Proof. intros c s H [ t [ Ht Hs ] ]. destruct (H t Ht) as [ _ H' ]. rewrite Forall_forall in H'. destruct (H' s Hs). unfold fresh. auto. Qed.

Lemma held_present : forall c0 c s n g o, opened c0 -> stems c0 c -> is_listed c s -> sl_num s = n -> sl_gen s = g ->
  held s = Some o -> present read_at read_compressed c0 n g o.
Proof.
  intros c0 c s n g o Ho H Hs Hn Hg Eh. destruct (H s Hs) as [ s0 [ H1 H2 ] ]. exists s0. split; auto. left.
  unfold held in Eh. destruct H2 as [ [ F1 [ F2 F3 ] ] | [ off [ o' [ F1 [ F2 F3 ] ] ] ] ].
  - exfalso. rewrite F3 in Eh. destruct (sl_data s0) as [ | off l | ] eqn:E; try discriminate. subst l.
    apply (opened_fresh c0 s0 Ho H1 off o). exact E.
  - rewrite F3 in Eh. inversion Eh; subst o'. exists off. rewrite <- Hn, <- Hg. auto.
Qed.
Lemma listed_mid : forall c1 a (s : slot) b c2, is_listed (c1 ++ (a ++ s :: b) :: c2) s.
Proof. intros. exists (a ++ s :: b). split; apply in_or_app; right; left; auto. Qed.

Theorem right_object : forall c0 l n g o, opened c0 ->
  snd (lookup (lookups c0 l) n g) = Ok (Some o) -> present read_at read_compressed c0 n g o.
Proof.
  intros c0 l n g o Ho E. pose proof (lookups_stems c0 l c0 (stems_refl c0)) as H. set (c := lookups c0 l) in *. clearbody c.
  unfold Misnumber.lookup in E. destruct (pick n g c) as [ [ [ c1 [ [ a s ] b ] ] c2 ] | ] eqn:Ep; [ | discriminate ].
  destruct (pick_app _ _ _ _ _ _ _ _ Ep) as [ Ec [ Hn Hg ] ].
  assert (Hs : is_listed c s) by (rewrite Ec; apply listed_mid).
  destruct (sl_data s) as [ | off l' | i j ] eqn:Ed; [ discriminate | | ].
  - destruct (load s) as [ s' | e | | ] eqn:El; try discriminate.
    assert (H' : stems c0 (c1 ++ (a ++ s' :: b) :: c2)) by (rewrite Ec in H; eapply stems_replace; eauto).
    destruct ((sl_num s' =? n) && (sl_gen s' =? g)) eqn:Eq.
    + cbn [snd] in E. apply (held_present c0 _ s' n g o Ho H'); try lia; [ apply listed_mid | congruence ].
    + destruct (recover (c1 ++ (a ++ s' :: b) :: c2)) as [ c3 x ] eqn:Er. pose proof (recover_stems _ _ _ _ H' Er) as H3.
      destruct x as [ [] | e | | ]; try discriminate.
      destruct (pick n g c3) as [ [ [ d1 [ [ a3 s3 ] b3 ] ] d2 ] | ] eqn:Ep3; [ | discriminate ].
      destruct (pick_app _ _ _ _ _ _ _ _ Ep3) as [ Ec3 [ Hn3 Hg3 ] ].
      destruct (sl_data s3) eqn:Ed3; try discriminate. cbn [snd] in E.
      apply (held_present c0 c3 s3 n g o Ho H3); auto; [ rewrite Ec3; apply listed_mid | congruence ].
  - cbn [snd] in E. destruct (read_compressed i j) as [ o' | | | ] eqn:Er; cbn [rbind] in E; try discriminate.
    assert (o' = o) by congruence. subst o'.
    destruct (H s Hs) as [ s0 [ H1 H2 ] ]. exists s0. split; auto. right. exists i, j.
    destruct H2 as [ [ F1 [ F2 F3 ] ] | [ off [ o' [ F1 [ F2 F3 ] ] ] ] ]; [ | congruence ].
    rewrite <- F1, <- F2, <- F3. auto.
Qed.

(** as long as no lookup met a misleading entry *)
Definition kept (s0 s : slot) : Prop := sl_code s = sl_code s0 /\ sl_num s = sl_num s0 /\ sl_gen s = sl_gen s0 /\ from s0 s.
Definition steady (c0 c : list table) : Prop := Forall2 (Forall2 kept) c0 c.

Lemma Forall2_refl : forall (A : Type) (R : A -> A -> Prop), (forall x, R x x) -> forall l, Forall2 R l l.
Proof. intros A R H l. induction l; constructor; auto. Qed.
Lemma steady_refl : forall c, steady c c.
Proof. intro c. apply Forall2_refl. intro t. apply Forall2_refl. intro s. repeat split; auto. left. auto. Qed.
Lemma kept_tidy : forall t0 t, NoDup (map sl_num t0) -> Forall unread t0 -> Forall2 kept t0 t -> tidy t.
Proof.
  intros t0 t H1 H2 H. split.
  - replace (map sl_num t) with (map sl_num t0); auto. clear -H.
    induction H as [ | s0 s t0 t [ _ [ Hs _ ] ] _ IH ]; cbn [map]; congruence.
  - clear H1. induction H as [ | s0 s t0 t [ Hc [ Hs _ ] ] _ IH ]; constructor; inversion H2 as [ | z l' [ Hz _ ] Hl ]; subst; auto. congruence.
Qed.
Lemma steady_tidy : forall c0 c, opened c0 -> steady c0 c -> Forall tidy c.
Proof.
  intros c0 c Ho H. induction H as [ | t0 t c0 c Ht _ IH ]; constructor.
  - destruct (Ho t0 (or_introl eq_refl)) as [ H1 H2 ]. eapply kept_tidy; eauto.
  - apply IH. intros t' H'. apply Ho. right. auto.
Qed.
Lemma Forall2_concat : forall (A : Type) (R : A -> A -> Prop) c0 c, Forall2 (Forall2 R) c0 c -> Forall2 R (concat c0) (concat c).
Proof. intros A R c0 c H. induction H; cbn [concat]; [ constructor | ]. apply Forall2_app; auto. Qed.
Lemma find_kept : forall n g l0 l, Forall2 kept l0 l ->
  match find (asked n g) l0, find (asked n g) l with
  | None, None => True
  | Some s0, Some s => kept s0 s
  | _, _ => False
  end.
Proof.
  intros n g l0 l H. induction H as [ | s0 s l0 l Hs _ IH ]; cbn [find]; auto.
  assert (E : asked n g s = asked n g s0) by (destruct Hs as [ _ [ -> [ -> _ ] ] ]; reflexivity). cbv beta in E. rewrite E.
  destruct ((sl_num s0 =? n) && (sl_gen s0 =? g)); auto.
Qed.
Lemma Forall2_split : forall (A B : Type) (R : A -> B -> Prop) l0 l1 x l2, Forall2 R l0 (l1 ++ x :: l2) ->
  exists k1 y k2, l0 = k1 ++ y :: k2 /\ Forall2 R k1 l1 /\ R y x /\ Forall2 R k2 l2.
Proof.
  intros A B R l0 l1 x l2 H. apply Forall2_app_inv_r in H. destruct H as [ k1 [ k [ H1 [ H2 -> ] ] ] ].
  inversion H2; subst. exists k1, x0, l. auto.
Qed.
Lemma replace2 : forall (R S : slot -> slot -> Prop) c0 c1 a s s' b c2,
  (forall x y, R x y -> S x y) -> (forall x, R x s -> S x s') ->
  Forall2 (Forall2 R) c0 (c1 ++ (a ++ s :: b) :: c2) -> Forall2 (Forall2 S) c0 (c1 ++ (a ++ s' :: b) :: c2).
Proof.
  intros R S c0 c1 a s s' b c2 HRS Hs H. apply Forall2_split in H. destruct H as [ k1 [ t [ k2 [ -> [ H1 [ H2 H3 ] ] ] ] ] ].
  apply Forall2_split in H2. destruct H2 as [ j1 [ y [ j2 [ -> [ J1 [ J2 J3 ] ] ] ] ] ].
  assert (Hw : forall u v, Forall2 R u v -> Forall2 S u v) by (intros u v Hu; induction Hu; constructor; auto).
  assert (Hw2 : forall u v, Forall2 (Forall2 R) u v -> Forall2 (Forall2 S) u v) by (intros u v Hu; induction Hu; constructor; auto).
  apply Forall2_app; auto. constructor; auto. apply Forall2_app; auto.
Qed.
Lemma opened_found : forall c n g s, opened c -> find (asked n g) (concat c) = Some s ->
  fresh s /\ sl_num s = n /\ sl_gen s = g.
Proof.
  clear Hperm. intros c n g s Ho H. apply find_some in H. destruct H as [ H1 H2 ]. apply in_concat in H1. destruct H1 as [ t [ H3 H4 ] ].
  repeat split; try lia. apply (opened_fresh c); auto. exists t. auto.
Qed.

(** what a lookup does while the tables are steady *)
Lemma steady_lookup : forall c0 c n g, opened c0 -> steady c0 c ->
  match find (asked n g) (concat c0) with
  | None => lookup c n g = (c, Ok None)
  | Some s0 =>
      match sl_data s0 with
      | SFree => lookup c n g = (c, Ok None)
      | SComp i j => lookup c n g = (c, do o <- read_compressed i j;; Ok (Some o))
      | SUsed off _ =>
          match read_at off with
          | Ok (n', g', o) =>
              if (n' =? n) && (g' =? g) then exists c', steady c0 c' /\ lookup c n g = (c', Ok (Some o))
              else exists c', Forall2 (Forall2 from) c0 c' /\ fst (lookup c n g) = fst (recover c') /\
                     (forall x, snd (lookup c n g) = Ok x -> snd (recover c') = Ok tt)
          | Throw e => lookup c n g = (c, Throw e)
          | Undef => lookup c n g = (c, Undef)
          | NoFuel => lookup c n g = (c, NoFuel)
          end
      end
  end.
Proof.
  clear Hperm. intros c0 c n g Ho Hc.
  pose proof (find_kept n g _ _ (Forall2_concat _ _ _ _ Hc)) as Hf.
  rewrite (pick_find n g c (steady_tidy _ _ Ho Hc)) in Hf.
  unfold Misnumber.lookup.
  destruct (find (asked n g) (concat c0)) as [ s0 | ] eqn:E0;
    destruct (pick n g c) as [ [ [ c1 [ [ a s ] b ] ] c2 ] | ] eqn:Ep; try contradiction; [ | reflexivity ].
  destruct (pick_app _ _ _ _ _ _ _ _ Ep) as [ Ec [ Hn Hg ] ].
  destruct (opened_found _ _ _ _ Ho E0) as [ Hfr [ Hn0 Hg0 ] ].
  destruct Hf as [ K1 [ K2 [ K3 [ [ F1 [ F2 F3 ] ] | [ off [ o [ F1 [ F2 F3 ] ] ] ] ] ] ] ].
  - rewrite <- F3. destruct (sl_data s) as [ | off [ o | ] | i j ] eqn:Ed; [ reflexivity | | | reflexivity ].
    + exfalso. apply (Hfr off o). auto.
    + unfold Misnumber.load. rewrite Ed.
      destruct (read_at off) as [ [ [ n' g' ] o ] | e | | ] eqn:Er; cbn [rbind]; try reflexivity.
      cbn [sl_num sl_gen sl_data held].
      set (s' := {| sl_code := sl_code s; sl_num := n'; sl_gen := g'; sl_data := SUsed off (Some o) |}).
      assert (El : load s = Ok s') by (unfold Misnumber.load; rewrite Ed, Er; reflexivity).
      destruct ((n' =? n) && (g' =? g)) eqn:Eq.
      * exists (c1 ++ (a ++ s' :: b) :: c2). split; [ | reflexivity ].
        unfold steady in *. rewrite Ec in Hc. revert Hc. apply replace2; auto.
        intros x [ X1 [ X2 [ X3 X4 ] ] ]. repeat split.
        -- exact X1.
        -- unfold s'; cbn [sl_num]. lia.
        -- unfold s'; cbn [sl_gen]. lia.
        -- eapply load_from; eauto.
      * exists (c1 ++ (a ++ s' :: b) :: c2). split; [ | split ].
        -- unfold steady in Hc. rewrite Ec in Hc. revert Hc. apply replace2.
           ++ intros x y Hxy. apply Hxy.
           ++ intros x [ _ [ _ [ _ X4 ] ] ]. eapply load_from; eauto.
        -- destruct (recover (c1 ++ (a ++ s' :: b) :: c2)) as [ c3 [ [] | e | | ] ]; try reflexivity.
           destruct (pick n g c3) as [ [ [ d1 [ [ a3 s3 ] b3 ] ] d2 ] | ]; [ destruct (sl_data s3) | ]; reflexivity.
        -- intros x Hx. destruct (recover (c1 ++ (a ++ s' :: b) :: c2)) as [ c3 [ [] | e | | ] ]; cbn [snd] in *; try discriminate. reflexivity.
  - rewrite F1. rewrite F2. rewrite F3. rewrite Hn, Hg, !N.eqb_refl. cbn [andb].
    unfold Misnumber.load. rewrite F3. rewrite Hn, Hg, !N.eqb_refl. cbn [andb].
    exists c. split; auto. rewrite <- Ec. unfold held. rewrite F3. reflexivity.
Qed.

Theorem consistent : forall c0 l n g, opened c0 -> (forall s, is_listed c0 s -> truthful read_at s) ->
  snd (lookup (lookups c0 l) n g) = by_table read_at read_compressed c0 n g.
Proof.
  clear Hperm. intros c0 l n g Ho Ht.
  assert (Hst : forall c m h, steady c0 c -> steady c0 (fst (lookup c m h)) /\ snd (lookup c m h) = by_table read_at read_compressed c0 m h).
  { intros c m h Hc. pose proof (steady_lookup c0 c m h Ho Hc) as H. unfold by_table.
    destruct (find (asked m h) (concat c0)) as [ s0 | ] eqn:E; [ | rewrite H; auto ].
    destruct (opened_found _ _ _ _ Ho E) as [ Hfr [ Hn0 Hg0 ] ].
    apply find_some in E. destruct E as [ E _ ]. apply in_concat in E. destruct E as [ t [ E1 E2 ] ].
    specialize (Ht s0 (ex_intro _ t (conj E1 E2))).
    destruct (sl_data s0) as [ | off x | i j ] eqn:Ed.
    - rewrite H. auto.
    - destruct (Ht off x Ed) as [ o Er ]. rewrite Hn0, Hg0 in Er. rewrite Er in *. rewrite !N.eqb_refl in H. cbn [andb] in H.
      destruct H as [ c' [ H1 -> ] ]. auto.
    - rewrite H. auto. }
  assert (Hl : forall l c, steady c0 c -> steady c0 (lookups c l)).
  { clear l n g. intro l. induction l as [ | [ m h ] l IH ]; intros c Hc; cbn [Misnumber.lookups]; auto. apply IH. apply Hst. auto. }
  apply Hst. apply Hl. apply steady_refl.
Qed.

(** after the tables were filled again *)
Definition settled (t0 t : table) : Prop :=
  tidy t /\ (forall s, In s t -> exists s0, In s0 t0 /\ final s0 s) /\
  (forall s0, In s0 t0 -> exists s, In s t /\ speaks_of read_at s0 (sl_num s)).

Lemma final_speaks : forall s0 s, final s0 s -> speaks_of read_at s0 (sl_num s).
Proof. intros s0 s H. unfold final in H. unfold speaks_of. destruct (sl_data s0); [ | destruct H as [ o [ H _ ] ]; eauto | ]; symmetry; apply H. Qed.
Lemma Forall2_in_r : forall (A B : Type) (R : A -> B -> Prop) l0 l, Forall2 R l0 l -> forall y, In y l -> exists x, In x l0 /\ R x y.
Proof. intros A B R l0 l H. induction H; intros z []; subst; [ exists x; split; auto; left; auto | ]. destruct (IHForall2 z H1) as [ w [ Hw1 Hw2 ] ]. exists w. split; auto. right; auto. Qed.
Lemma Forall2_in_l : forall (A B : Type) (R : A -> B -> Prop) l0 l, Forall2 R l0 l -> forall x, In x l0 -> exists y, In y l /\ R x y.
Proof. intros A B R l0 l H. induction H; intros z []; subst; [ exists y; split; auto; left; auto | ]. destruct (IHForall2 z H1) as [ w [ Hw1 Hw2 ] ]. exists w. split; auto. right; auto. Qed.

Lemma refill_settled : forall t0 t, Forall2 final t0 t -> settled t0 (refill t).
Proof.
  intros t0 t H. unfold Misnumber.refill. destruct (fold_insert (arrange t) [] tidy_nil) as [ H1 [ H2 H3 ] ]. repeat split; try apply H1.
  - intros s Hs. destruct (H2 s Hs) as [ [] | [ x [ Hx [ E1 [ E2 E3 ] ] ] ] ]. apply (Permutation_in x (Hperm t)) in Hx.
    destruct (Forall2_in_r _ _ _ _ _ H x Hx) as [ s0 [ S1 S2 ] ]. exists s0. split; auto.
    unfold final in *. rewrite E1, E2, E3. exact S2.
  - intros s0 Hs0. destruct (Forall2_in_l _ _ _ _ _ H s0 Hs0) as [ x [ Hx1 Hx2 ] ].
    assert (Hin : In (sl_num x) (map sl_num (fold_left insert_slot (arrange t) []))).
    { apply H3. right. apply in_map. apply (Permutation_in x (Permutation_sym (Hperm t))). auto. }
    apply in_map_iff in Hin. destruct Hin as [ s [ Es Hs ] ]. exists s. split; auto. rewrite Es. apply final_speaks. auto.
Qed.
Lemma recover_settled : forall c0 c, (forall s, is_listed c0 s -> fresh s /\ readable read_at read_compressed s) ->
  Forall2 (Forall2 from) c0 c -> exists c', recover c = (c', Ok tt) /\ Forall2 settled c0 c'.
Proof.
  intros c0 c Hf H. induction H as [ | t0 t c0 c Ht _ IH ]; cbn [Misnumber.recover]; [ eauto | ].
  destruct (load_table_readable t0 t) as [ t' [ -> H' ] ]; auto.
  - apply Forall_forall. intros s Hs. apply Hf. exists t0. split; [ left | ]; auto.
  - apply Forall_forall. intros s Hs. apply Hf. exists t0. split; [ left | ]; auto.
  - destruct IH as [ c' [ -> Hc' ] ].
    + intros s [ t1 [ H1 H2 ] ]. apply Hf. exists t1. split; [ right | ]; auto.
    + eexists. split; [ reflexivity | ]. constructor; auto. apply refill_settled. auto.
Qed.
Lemma settled_lookup : forall c0 c n g, Forall2 settled c0 c ->
  fst (lookup c n g) = c /\
  (forall s off, find (asked n g) (concat c) = Some s -> sl_data s = SUsed off (held s) -> held s <> None -> snd (lookup c n g) = Ok (held s)).
Proof.
  intros c0 c n g H.
  assert (Ht : Forall tidy c) by (clear -H; induction H as [ | t0 t c0 c [ Ht _ ] _ IH ]; constructor; auto).
  unfold Misnumber.lookup. rewrite (pick_find n g c Ht).
  destruct (pick n g c) as [ [ [ c1 [ [ a s ] b ] ] c2 ] | ] eqn:Ep; [ | split; [ reflexivity | discriminate ] ].
  destruct (pick_app _ _ _ _ _ _ _ _ Ep) as [ Ec [ Hn Hg ] ].
  destruct (sl_data s) as [ | off x | i j ] eqn:Ed.
  - split; [ reflexivity | ]. intros s1 off1 E1. assert (s1 = s) by congruence. subst s1. rewrite Ed. discriminate.
  - assert (Hx : x <> None).
    { rewrite Ec in H. apply Forall2_split in H. destruct H as [ k1 [ t0 [ k2 [ _ [ _ [ [ _ [ H _ ] ] _ ] ] ] ] ] ].
      destruct (H s) as [ s0 [ _ Hs ] ]. { apply in_or_app. right. left. auto. }
      unfold final in Hs. rewrite Ed in Hs. destruct (sl_data s0) as [ | off' l | ].
      - destruct Hs as [ _ [ _ Hs ] ]. discriminate.
      - destruct Hs as [ o [ _ Hs ] ]. inversion Hs. discriminate.
      - destruct Hs as [ _ [ _ Hs ] ]. discriminate. }
    destruct x as [ o | ]; [ | congruence ].
    unfold Misnumber.load. rewrite Ed. rewrite Hn, Hg, !N.eqb_refl. cbn [andb fst snd]. split; [ symmetry; exact Ec | ].
    intros s1 off1 E1. assert (s1 = s) by congruence. subst s1. auto.
  - split; [ reflexivity | ]. intros s1 off1 E1. assert (s1 = s) by congruence. subst s1. rewrite Ed. discriminate.
Qed.

Lemma find_app_some : forall (A : Type) (f : A -> bool) l1 l2 x, find f l1 = Some x -> find f (l1 ++ l2) = Some x.
Proof. intros A f l1. induction l1 as [ | y r IH ]; cbn [find app]; intros l2 x H; [ discriminate | ]. destruct (f y); auto. Qed.

Theorem recovered : forall c0 l n g s,
  opened c0 -> (forall s, is_listed c0 s -> readable read_at read_compressed s) ->
  In (n, g) l -> meets c0 n g s -> misleads read_at s n g ->
  forall newer t older e off n' g' o,
  c0 = newer ++ t :: older -> In e t -> sl_data e = SUsed off None -> read_at off = Ok (n', g', o) ->
  (forall s, is_listed newer s -> ~ speaks_of read_at s n') -> (forall s, In s t -> speaks_of read_at s n' -> s = e) ->
  snd (lookup (lookups c0 l) n' g') = Ok (Some o).
Proof.
  intros c0 l n g s Ho Hr Hin Hm Hmis.
  assert (Hfr : forall s, is_listed c0 s -> fresh s /\ readable read_at read_compressed s) by (intros x Hx; split; auto; apply (opened_fresh c0); auto).
  assert (Hset : forall l c, Forall2 settled c0 c -> Forall2 settled c0 (lookups c l)).
  { clear. intro l. induction l as [ | [ m h ] l IH ]; intros c Hc; cbn [Misnumber.lookups]; auto. apply IH.
    rewrite (proj1 (settled_lookup c0 c m h Hc)). auto. }
  assert (Hone : forall c m h, steady c0 c -> steady c0 (fst (lookup c m h)) \/ Forall2 settled c0 (fst (lookup c m h))).
  { intros c m h Hc. pose proof (steady_lookup c0 c m h Ho Hc) as H.
    destruct (find (asked m h) (concat c0)) as [ s0 | ]; [ | rewrite H; auto ].
    destruct (sl_data s0) as [ | off x | i j ]; try (rewrite H; auto; fail).
    destruct (read_at off) as [ [ [ n' g' ] o ] | e | | ]; try (rewrite H; auto; fail).
    destruct ((n' =? m) && (g' =? h)).
    - destruct H as [ c' [ H1 -> ] ]. auto.
    - destruct H as [ c' [ H1 [ -> _ ] ] ]. destruct (recover_settled c0 c' Hfr H1) as [ c3 [ -> H3 ] ]. auto. }
  assert (Hmis1 : forall c, steady c0 c -> Forall2 settled c0 (fst (lookup c n g))).
  { intros c Hc. pose proof (steady_lookup c0 c n g Ho Hc) as H. unfold meets in Hm. rewrite Hm in H.
    destruct Hmis as [ _ [ _ [ off [ n' [ g' [ o [ E1 [ E2 E3 ] ] ] ] ] ] ] ]. rewrite E1, E2 in H.
    destruct ((n' =? n) && (g' =? g)) eqn:Eq.
    - exfalso. apply E3. f_equal; lia.
    - destruct H as [ c' [ H1 [ -> _ ] ] ]. destruct (recover_settled c0 c' Hfr H1) as [ c3 [ -> H3 ] ]. auto. }
  assert (Hall : forall l c, In (n, g) l -> steady c0 c -> Forall2 settled c0 (lookups c l)).
  { clear l Hin. intro l. induction l as [ | [ m h ] l IH ]; intros c Hin Hc; [ destruct Hin | ].
    cbn [Misnumber.lookups]. destruct Hin as [ E | Hin ].
    - inversion E; subst. apply Hset. apply Hmis1. auto.
    - destruct (Hone c m h Hc) as [ H | H ]; auto. }
  specialize (Hall l c0 Hin (steady_refl c0)). set (c := lookups c0 l) in *. clearbody c.
  intros newer t older e off n' g' o Ec0 He Ed Er Hnew Huniq.
  pose proof Hall as Hall'. rewrite Ec0 in Hall. apply Forall2_app_inv_l in Hall. destruct Hall as [ d1 [ d [ Hd1 [ Hd Ec ] ] ] ].
  inversion Hd as [ | t0 u k0 d2 Hu Hd2 ]; subst t0 k0 d.
  destruct Hu as [ [ Hu1 Hu2 ] [ Hu3 Hu4 ] ].
  destruct (Hu4 e He) as [ s3 [ Hs3 Hsp ] ].
  assert (Esp : sl_num s3 = n'). { unfold speaks_of in Hsp. rewrite Ed in Hsp. destruct Hsp as [ g1 [ o1 Hsp ] ]. congruence. }
  destruct (Hu3 s3 Hs3) as [ s0 [ Hs0 Hf ] ]. pose proof (final_speaks _ _ Hf) as Hsp0. rewrite Esp in Hsp0.
  apply Huniq in Hsp0; auto. subst s0. unfold final in Hf. rewrite Ed in Hf. destruct Hf as [ o1 [ Hf1 Hf2 ] ].
  assert (sl_gen s3 = g' /\ o1 = o) as [ Eg -> ] by (rewrite Er in Hf1; split; congruence).
  assert (Hfind : find (asked n' g') (concat c) = Some s3).
  { rewrite Ec, concat_app. rewrite find_app_none.
    - cbn [concat]. apply find_app_some.
      apply in_split in Hs3. destruct Hs3 as [ v1 [ v2 -> ] ]. rewrite map_app in Hu1. cbn [map] in Hu1. apply NoDup_remove_2 in Hu1.
      rewrite find_app_none.
      + cbn [find]. rewrite Esp, Eg, !N.eqb_refl. reflexivity.
      + apply find_none_forall. apply Forall_forall. intros x Hx.
        destruct (sl_num x =? n') eqn:Ex; [ | reflexivity ]. exfalso. apply Hu1. rewrite Esp. replace n' with (sl_num x) by lia.
        apply in_or_app. left. apply in_map. auto.
    - apply find_none_forall. apply Forall_forall. intros x Hx.
      destruct (sl_num x =? n') eqn:Ex; [ | reflexivity ]. exfalso.
      apply in_concat in Hx. destruct Hx as [ w [ Hw1 Hw2 ] ].
      destruct (Forall2_in_r _ _ _ _ _ Hd1 w Hw1) as [ w0 [ W1 [ _ [ W2 _ ] ] ] ]. destruct (W2 x Hw2) as [ s0 [ X1 X2 ] ].
      apply (Hnew s0). { exists w0. auto. } replace n' with (sl_num x) by lia. apply final_speaks. auto. }
  assert (Eh : held s3 = Some o) by (unfold held; rewrite Hf2; reflexivity). rewrite <- Eh.
  apply (proj2 (settled_lookup c0 c n' g' Hall') s3 off Hfind); rewrite Eh; [ exact Hf2 | discriminate ].
Qed.

Lemma recover_ok : forall c, snd (recover c) = Ok tt -> forall s, is_listed c s -> exists s', load s = Ok s'.
Proof.
  intro c. induction c as [ | t c IH ]; intros H s [ t1 [ H1 H2 ] ]; [ destruct H1 | ].
  cbn [Misnumber.recover] in H. destruct (load_table t) as [ t' [ [] | e | | ] ] eqn:E; try discriminate.
  destruct (recover c) as [ c' x ]. cbn [snd] in *. subst x.
  destruct H1 as [ <- | H1 ]; [ eapply load_table_ok; eauto | ]. apply IH; auto. exists t1. auto.
Qed.
Theorem damaged : forall c n g s d,
  opened c -> meets c n g s -> misleads read_at s n g -> is_listed c d -> ~ readable read_at read_compressed d ->
  forall r, snd (lookup c n g) <> Ok r.
Proof.
  clear Hperm. intros c n g s d Ho Hm Hmis Hd Hnr r H.
  pose proof (steady_lookup c c n g Ho (steady_refl c)) as Hl. unfold meets in Hm. rewrite Hm in Hl.
  destruct Hmis as [ _ [ _ [ off [ n' [ g' [ o [ E1 [ E2 E3 ] ] ] ] ] ] ] ]. rewrite E1, E2 in Hl.
  destruct ((n' =? n) && (g' =? g)) eqn:Eq; [ apply E3; f_equal; lia | ].
  destruct Hl as [ c' [ H1 [ _ H2 ] ] ]. specialize (H2 _ H).
  destruct Hd as [ t [ D1 D2 ] ]. destruct (Forall2_in_l _ _ _ _ _ H1 t D1) as [ u [ U1 U2 ] ].
  destruct (Forall2_in_l _ _ _ _ _ U2 d D2) as [ y [ Y1 Y2 ] ].
  destruct (recover_ok c' H2 y (ex_intro _ u (conj U1 Y1))) as [ y' Hy ].
  apply Hnr. unfold readable. destruct Y2 as [ [ F1 [ F2 F3 ] ] | [ off' [ o' [ F1 [ F2 F3 ] ] ] ] ].
  - unfold Misnumber.load in Hy. rewrite F3 in Hy. destruct (sl_data d) as [ | off' [ o' | ] | i j ] eqn:Ed; auto.
    + exfalso. destruct (Ho t D1) as [ _ Hu ]. rewrite Forall_forall in Hu. destruct (Hu d D2) as [ _ Hu' ]. apply (Hu' off' o'). exact Ed.
    + destruct (read_at off') as [ [ [ a b ] x ] | | | ]; cbn [rbind] in Hy; try discriminate. eauto.
    + destruct (read_compressed i j) as [ x | | | ]; cbn [rbind] in Hy; try discriminate. eauto.
  - rewrite F1. eauto.
Qed.
End Lookup.

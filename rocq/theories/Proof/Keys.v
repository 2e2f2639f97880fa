(** Proofs about names as dictionary keys. *)
From Coq Require Import List NArith ZArith Bool Lia Sorted.
From Verif.Model Require Import Base SMap Keys.
From Verif.Spec Require Import Keys.
From Verif.Proof Require Import Tac SMap.
Import ListNotations.

Definition shown (tx : nat -> bytes) (t : tree) : list (bytes * nat) := map (fun e => (tx (fst e), snd e)) (elements t).

Lemma size_elements : forall t, size t = length (elements t).
Proof. induction t as [|l IHl k v r IHr]; cbn [size elements]; [reflexivity|]. rewrite app_length. cbn [length]. lia. Qed.

Lemma shown_node : forall tx l k v r, shown tx (Node l k v r) = shown tx l ++ (tx k, v) :: shown tx r.
Proof. intros. unfold shown. cbn [elements]. rewrite map_app. reflexivity. Qed.
Lemma shown_length : forall tx t, length (shown tx t) = size t.
Proof. intros. unfold shown. rewrite map_length, size_elements. reflexivity. Qed.

Lemma sorted_app : forall {V} (a b : smap V), sm_sorted (a ++ b) <->
  sm_sorted a /\ sm_sorted b /\ (forall x y, In x a -> In y b -> buffer_ltb (fst x) (fst y) = true).
Proof.
  unfold sm_sorted. induction a as [|x a IH]; intros b; cbn [app].
  - split; [intros H; repeat split; [constructor|exact H|intros ? ? []]|intros (_ & H & _); exact H].
  - split.
    + intros H. inversion H as [|? ? H1 H2]; subst. apply IH in H1. destruct H1 as (Ha & Hb & Hab).
      rewrite Forall_forall in H2. split; [|split; [exact Hb|]].
      * constructor; [exact Ha|]. rewrite Forall_forall. intros y Hy. apply H2. apply in_or_app; left; exact Hy.
      * intros y z [<- |Hy] Hz; [apply H2, in_or_app; right; exact Hz|apply Hab; assumption].
    + intros (Ha & Hb & Hab). inversion Ha as [|? ? H1 H2]; subst. constructor.
      * apply IH. split; [exact H1|split; [exact Hb|]]. intros y z Hy Hz. apply Hab; [right; exact Hy|exact Hz].
      * rewrite Forall_forall in *. intros y Hy. apply in_app_or in Hy. destruct Hy as [Hy|Hy]; [apply H2; exact Hy|apply Hab; [left; reflexivity|exact Hy]].
Qed.

Section Tree.
Variable tx : nat -> bytes.

(** the way down stops between the smaller elements and the others *)
Lemma lower_bound_split : forall k t, sm_sorted (shown tx t) ->
  exists a b, shown tx t = a ++ b /\ length a = lower_bound tx k t
    /\ (forall e, In e a -> buffer_ltb (fst e) k = true) /\ (forall e, In e b -> buffer_ltb (fst e) k = false).
Proof.
  intros k. induction t as [|l IHl x v r IHr]; intros Hs.
  - exists [], []. cbn. repeat split; intros ? [].
  - rewrite shown_node in Hs. pose proof Hs as Hs0. apply sorted_app in Hs. destruct Hs as (Hl & Hxr & Hlx).
    pose proof Hxr as Hxr0. inversion Hxr as [|? ? Hr Hxr']; subst. rewrite Forall_forall in Hxr'. cbn [fst] in Hxr'.
    cbn [lower_bound]. rewrite shown_node. destruct (buffer_ltb (tx x) k) eqn:E.
    + destruct (IHr Hr) as (a & b & Hab & Hlen & Ha & Hb).
      exists (shown tx l ++ (tx x, v) :: a), b. split; [rewrite Hab, <- app_assoc; reflexivity|]. split.
      * rewrite app_length. cbn [length]. rewrite shown_length. lia.
      * split; [|exact Hb]. intros e He. apply in_app_or in He. destruct He as [He|[<- |He]].
        -- apply ltb_trans with (tx x); [|exact E]. apply (Hlx e (tx x, v) He). left; reflexivity.
        -- exact E.
        -- apply Ha. exact He.
    + destruct (IHl Hl) as (a & b & Hab & Hlen & Ha & Hb).
      exists a, (b ++ (tx x, v) :: shown tx r). split; [rewrite Hab, <- app_assoc; reflexivity|]. split; [exact Hlen|]. split; [exact Ha|].
      intros e He. apply in_app_or in He. destruct He as [He|[<- |He]]; [apply Hb; exact He|exact E|].
      destruct (buffer_ltb (fst e) k) eqn:E2; [|reflexivity].
      rewrite <- E. symmetry. apply ltb_trans with (fst e); [|exact E2]. apply Hxr'. exact He.
Qed.

Lemma sm_find_skip : forall {V} (a b : smap V) k, (forall e, In e a -> buffer_ltb (fst e) k = true) -> sm_find k (a ++ b) = sm_find k b.
Proof.
  induction a as [|[y v] a IH]; intros b k H; [reflexivity|]. cbn [app sm_find].
  pose proof (H (y, v) (or_introl eq_refl)) as Hy. cbn [fst] in Hy. rewrite (ltb_asym _ _ Hy), Hy. apply IH. intros e He. apply H. right; exact He.
Qed.
Lemma sm_remove_skip : forall {V} (a b : smap V) k, (forall e, In e a -> buffer_ltb (fst e) k = true) -> sm_remove k (a ++ b) = a ++ sm_remove k b.
Proof.
  induction a as [|[y v] a IH]; intros b k H; [reflexivity|]. cbn [app sm_remove].
  pose proof (H (y, v) (or_introl eq_refl)) as Hy. cbn [fst] in Hy. rewrite (ltb_asym _ _ Hy), Hy. f_equal. apply IH. intros e He. apply H. right; exact He.
Qed.
Lemma sm_insert_skip : forall {V} (a b : smap V) k w, (forall e, In e a -> buffer_ltb (fst e) k = true) -> sm_insert k w (a ++ b) = a ++ sm_insert k w b.
Proof.
  induction a as [|[y v] a IH]; intros b k w H; [reflexivity|]. cbn [app sm_insert].
  pose proof (H (y, v) (or_introl eq_refl)) as Hy. cbn [fst] in Hy. rewrite (ltb_asym _ _ Hy), Hy. f_equal. apply IH. intros e He. apply H. right; exact He.
Qed.

Lemma find_key_ok : forall k t, sm_sorted (shown tx t) ->
  match find_key tx k t with
  | Some (i, (x, v)) => sm_find k (shown tx t) = Some v /\ nth_error (elements t) i = Some (x, v)
      /\ sm_remove k (shown tx t) = firstn i (shown tx t) ++ skipn (S i) (shown tx t)
  | None => sm_find k (shown tx t) = None /\ sm_remove k (shown tx t) = shown tx t
  end.
Proof.
  intros k t Hs. destruct (lower_bound_split k t Hs) as (a & b & Hab & Hlen & Ha & Hb). unfold find_key.
  set (i := lower_bound tx k t) in *.
  assert (Hn : nth_error (shown tx t) i = nth_error b 0).
  { rewrite Hab, nth_error_app2 by lia. f_equal. lia. }
  unfold shown in Hn at 1. rewrite nth_error_map in Hn. destruct (nth_error (elements t) i) as [[x v]|] eqn:Ei; cbn [option_map] in Hn.
  - destruct b as [|e b]; [discriminate|]. cbn [nth_error] in Hn. injection Hn as <-. cbn [fst snd].
    pose proof (Hb (tx x, v) (or_introl eq_refl)) as Hx. cbn [fst] in Hx.
    rewrite Hab. destruct (buffer_ltb k (tx x)) eqn:E.
    + rewrite sm_find_skip, sm_remove_skip by exact Ha. cbn [sm_find sm_remove]. rewrite E. split; reflexivity.
    + rewrite sm_find_skip, sm_remove_skip by exact Ha. cbn [sm_find sm_remove]. rewrite E, Hx. split; [reflexivity|]. split; [exact Ei|].
      rewrite <- Hlen, firstn_app, firstn_all, Nat.sub_diag, firstn_O, app_nil_r. rewrite skipn_app.
      replace (S (length a) - length a) with 1 by lia. rewrite (@skipn_all2 _ (S (length a)) a) by lia. reflexivity.
  - destruct b as [|e b]; [|discriminate]. rewrite app_nil_r in Hab. rewrite Hab.
    pose proof (sm_find_skip a [] k Ha) as H1. pose proof (sm_remove_skip a [] k Ha) as H2. rewrite app_nil_r in H1, H2. cbn [sm_find sm_remove] in H1, H2.
    rewrite app_nil_r in H2. split; assumption.
Qed.

Lemma insert_key_ok : forall k v t before, sm_sorted (shown tx t) ->
  (forall p e, before = Some p -> In e (shown tx t) -> buffer_ltb (tx p) (fst e) = true) ->
  (forall p, before = Some p -> buffer_ltb (tx k) (tx p) = false) ->
  match insert_key tx k v before t with
  | Some t' => shown tx t' = sm_insert (tx k) v (shown tx t) /\ (forall e, In e (elements t') -> e = (k, v) \/ In e (elements t))
      /\ (forall p, before = Some p -> buffer_ltb (tx p) (tx k) = true)
  | None => sm_insert (tx k) v (shown tx t) = shown tx t \/ (exists p, before = Some p /\ buffer_ltb (tx p) (tx k) = false)
  end.
Proof.
  intros k v. induction t as [|l IHl x y r IHr]; intros before Hs Hbe Hbk.
  - cbn [insert_key]. destruct before as [p|].
    + destruct (buffer_ltb (tx p) (tx k)) eqn:E; [|right; exists p; split; [reflexivity|exact E]].
      split; [reflexivity|]. split; [intros e [<- |[]]; left; reflexivity|]. intros q Hq. injection Hq as <-. exact E.
    + split; [reflexivity|]. split; [intros e [<- |[]]; left; reflexivity|discriminate].
  - rewrite shown_node in Hs. pose proof Hs as Hs0. apply sorted_app in Hs. destruct Hs as (Hl & Hxr & Hlx).
    inversion Hxr as [|? ? Hr Hxr']; subst. rewrite Forall_forall in Hxr'. cbn [fst] in Hxr'.
    cbn [insert_key]. destruct (buffer_ltb (tx k) (tx x)) eqn:E.
    + assert (H1 : forall p e, before = Some p -> In e (shown tx l) -> buffer_ltb (tx p) (fst e) = true).
      { intros p e Hp He. apply (Hbe p e Hp). rewrite shown_node. apply in_or_app. left; exact He. }
      specialize (IHl before Hl H1 Hbk).
      assert (Hins : sm_insert (tx k) v (shown tx l ++ (tx x, y) :: shown tx r) = sm_insert (tx k) v (shown tx l) ++ (tx x, y) :: shown tx r).
      { clear - Hlx E. induction (shown tx l) as [|[z w] m IH]; cbn [app sm_insert]; [rewrite E; reflexivity|].
        destruct (buffer_ltb (tx k) z); [reflexivity|]. destruct (buffer_ltb z (tx k)) eqn:E2; [|reflexivity]. cbn [app]. f_equal. apply IH.
        intros a b Ha Hb. apply Hlx; [right; exact Ha|exact Hb]. }
      destruct (insert_key tx k v before l) as [l'|].
      * destruct IHl as (Hsh & Hin & Hp). rewrite !shown_node, Hins, Hsh. split; [reflexivity|]. split; [|exact Hp].
        intros e He. cbn [elements] in *. apply in_app_or in He. destruct He as [He|He].
        -- destruct (Hin e He) as [H|H]; [left; exact H|right; apply in_or_app; left; exact H].
        -- right. apply in_or_app. right; exact He.
      * destruct IHl as [IHl|IHl]; [left|right; exact IHl]. rewrite shown_node, Hins, IHl. reflexivity.
    + assert (H1 : forall p e, Some x = Some p -> In e (shown tx r) -> buffer_ltb (tx p) (fst e) = true).
      { intros p e Hp He. injection Hp as <-. apply Hxr'. exact He. }
      assert (H2 : forall p, Some x = Some p -> buffer_ltb (tx k) (tx p) = false).
      { intros p Hp. injection Hp as <-. exact E. }
      specialize (IHr (Some x) Hr H1 H2).
      destruct (insert_key tx k v (Some x) r) as [r'|].
      * destruct IHr as (Hsh & Hin & Hp). pose proof (Hp x eq_refl) as Hxk.
        assert (Hall : forall e, In e (shown tx l ++ [(tx x, y)]) -> buffer_ltb (fst e) (tx k) = true).
        { intros e He. apply in_app_or in He. destruct He as [He|[<- |[]]]; [|exact Hxk]. apply ltb_trans with (tx x); [|exact Hxk].
          apply (Hlx e (tx x, y) He). left; reflexivity. }
        rewrite !shown_node, Hsh. split.
        { change (shown tx l ++ (tx x, y) :: shown tx r) with (shown tx l ++ [(tx x, y)] ++ shown tx r). rewrite app_assoc, (sm_insert_skip _ _ _ _ Hall), <- app_assoc. reflexivity. }
        split.
        { intros e He. cbn [elements] in *. apply in_app_or in He. destruct He as [He|[He|He]].
          - right. apply in_or_app. left; exact He.
          - right. apply in_or_app. right; left; exact He.
          - destruct (Hin e He) as [H|H]; [left; exact H|right; apply in_or_app; right; right; exact H]. }
        intros p Hpp. apply ltb_trans with (tx x); [|exact Hxk]. apply (Hbe p (tx x, y) Hpp). rewrite shown_node. apply in_or_app. right; left; reflexivity.
      * left. assert (Hallx : buffer_ltb (tx x) (tx k) = false \/ (buffer_ltb (tx x) (tx k) = true /\ sm_insert (tx k) v (shown tx r) = shown tx r)).
        { destruct (buffer_ltb (tx x) (tx k)) eqn:E3; [right|left; reflexivity]. destruct IHr as [IHr|(p & Hp & Hp2)]; [split; [reflexivity|exact IHr]|].
          injection Hp as <-. congruence. }
        assert (Hlk : buffer_ltb (tx x) (tx k) = false -> forall e, In e (shown tx l) -> buffer_ltb (tx k) (fst e) = false).
        { intros _ e He. destruct (buffer_ltb (tx k) (fst e)) eqn:E4; [|reflexivity]. rewrite <- E. symmetry. apply ltb_trans with (fst e); [exact E4|].
          apply (Hlx e (tx x, y) He). left; reflexivity. }
        rewrite shown_node. destruct Hallx as [E3|(E3 & Hr2)].
        -- clear - Hlx E E3 Hlk. specialize (Hlk E3). induction (shown tx l) as [|[z w] m IH]; cbn [app sm_insert]; [rewrite E, E3; reflexivity|].
           pose proof (Hlk (z, w) (or_introl eq_refl)) as Hz. cbn [fst] in Hz. rewrite Hz. destruct (buffer_ltb z (tx k)) eqn:E5; [|reflexivity].
           f_equal. apply IH; [intros a b Ha Hb; apply Hlx; [right; exact Ha|exact Hb]|intros e He; apply Hlk; right; exact He].
        -- change (shown tx l ++ (tx x, y) :: shown tx r) with (shown tx l ++ [(tx x, y)] ++ shown tx r). rewrite app_assoc.
           assert (Hall : forall e, In e (shown tx l ++ [(tx x, y)]) -> buffer_ltb (fst e) (tx k) = true).
           { intros e He. apply in_app_or in He. destruct He as [He|[<- |[]]]; [|exact E3]. apply ltb_trans with (tx x); [|exact E3].
             apply (Hlx e (tx x, y) He). left; reflexivity. }
           rewrite (sm_insert_skip _ _ _ _ Hall), Hr2. reflexivity.
Qed.
End Tree.

Lemma join_elements : forall l r, elements (join l r) = elements l ++ elements r.
Proof. induction l as [|a IHa k v b IHb]; intros r; cbn [join elements]; [reflexivity|]. rewrite IHb, <- app_assoc. reflexivity. Qed.
Lemma remove_at_elements : forall t i, i < size t -> elements (remove_at i t) = firstn i (elements t) ++ skipn (S i) (elements t).
Proof.
  induction t as [|l IHl k v r IHr]; intros i Hi; cbn [size] in Hi; [lia|]. cbn [remove_at elements].
  pose proof (size_elements l) as Hl. destruct (Nat.ltb i (size l)) eqn:E1.
  - apply Nat.ltb_lt in E1. cbn [elements]. rewrite (IHl i E1). rewrite firstn_app, skipn_app.
    replace (i - length (elements l)) with 0 by lia. replace (S i - length (elements l)) with 0 by lia. cbn [firstn skipn]. rewrite app_nil_r, <- app_assoc. reflexivity.
  - apply Nat.ltb_ge in E1. destruct (Nat.eqb i (size l)) eqn:E2.
    + apply Nat.eqb_eq in E2. rewrite join_elements, firstn_app, skipn_app, (@firstn_all2 _ i (elements l)) by lia. rewrite (@skipn_all2 _ (S i) (elements l)) by lia.
      replace (i - length (elements l)) with 0 by lia. replace (S i - length (elements l)) with 1 by lia. cbn [firstn skipn]. rewrite app_nil_r. reflexivity.
    + apply Nat.eqb_neq in E2. cbn [elements]. rewrite IHr by lia. rewrite firstn_app, skipn_app, (@firstn_all2 _ i (elements l)) by lia. rewrite (@skipn_all2 _ (S i) (elements l)) by lia.
      replace (i - length (elements l)) with (S (i - size l - 1)) by lia. replace (S i - length (elements l)) with (S (S (i - size l - 1))) by lia.
      cbn [firstn skipn app]. rewrite <- app_assoc. reflexivity.
Qed.

(** lists with one element replaced *)
Lemma nth_error_put_same : forall {A} (l : list A) i x, i < length l -> nth_error (firstn i l ++ x :: skipn (S i) l) i = Some x.
Proof. intros A l i x H. rewrite nth_error_app2; rewrite firstn_length_le by lia; [|lia]. rewrite Nat.sub_diag. reflexivity. Qed.
Lemma nth_error_put_other : forall {A} (l : list A) i j x, i < length l -> i <> j -> nth_error (firstn i l ++ x :: skipn (S i) l) j = nth_error l j.
Proof.
  intros A l i j x H Hij. rewrite <- (firstn_skipn i l) at 3. destruct (Nat.lt_ge_cases j i) as [Hj|Hj].
  - rewrite !nth_error_app1 by (rewrite firstn_length_le; lia). reflexivity.
  - rewrite !nth_error_app2 by (rewrite firstn_length_le; lia). rewrite firstn_length_le by lia.
    destruct (j - i) as [|n] eqn:E; [lia|]. cbn [nth_error].
    assert (Hsk : exists y, skipn i l = y :: skipn (S i) l).
    { clear - H. revert i H. induction l as [|a l IH]; intros i H; [cbn in H; lia|]. destruct i; [exists a; reflexivity|]. cbn [length] in H. apply (IH i). lia. }
    destruct Hsk as (y & Hy). rewrite Hy. reflexivity.
Qed.
Lemma put_length : forall {A} (l : list A) i x, i < length l -> length (firstn i l ++ x :: skipn (S i) l) = length l.
Proof. intros A l i x H. rewrite app_length, firstn_length_le by lia. cbn [length]. rewrite skipn_length. lia. Qed.

Lemma in_firstn_le : forall {A} (l : list A) a b (x : A), In x (firstn a l) -> a <= b -> In x (firstn b l).
Proof.
  intros A l a b x H Hab. replace (firstn a l) with (firstn a (firstn b l)) in H by (rewrite firstn_firstn; f_equal; lia).
  rewrite <- (firstn_skipn a (firstn b l)). apply in_or_app. left; exact H.
Qed.
Lemma in_skipn_le : forall {A} (l : list A) a b (x : A), In x (skipn b l) -> a <= b -> In x (skipn a l).
Proof.
  intros A. induction l as [|y l IH]; intros a b x H Hab; [destruct b; destruct H|]. destruct b as [|b]; [assert (a = 0) by lia; subst; exact H|].
  cbn [skipn] in H. destruct a as [|a]; [right|cbn [skipn]; apply (IH a b x H); lia]. apply (IH 0 b x H). lia.
Qed.

Section Run.
Variable rebalance : tree -> tree.
Hypothesis Hre : forall t, elements (rebalance t) = elements t.

(** What relates the library's state and the expected one; [used] are the handles that must not be changed. *)
Record related (w : world) (i : ideal) (used : list nat) : Prop := {
  r_texts : Forall all_bytes (w_texts w);
  r_len : length (i_names i) = length (w_names w);
  r_name : forall h b, nth_error (w_names w) h = Some b -> b < length (w_texts w) /\ nth_error (i_names i) h = Some (text w b);
  r_alias : forall h1 h2 b, nth_error (w_names w) h1 = Some b -> nth_error (w_names w) h2 = Some b -> h1 <> h2 -> In h1 used /\ In h2 used;
  r_dlen : length (i_dicts i) = length (w_dicts w);
  r_dict : forall d t, nth_error (w_dicts w) d = Some t -> nth_error (i_dicts i) d = Some (shown (text w) t);
  r_sorted : forall d t, nth_error (w_dicts w) d = Some t -> sm_sorted (shown (text w) t);
  r_keys : forall d t e, nth_error (w_dicts w) d = Some t -> In e (elements t) ->
    exists h, In h used /\ nth_error (w_names w) h = Some (fst e)
}.

Lemma text_bytes : forall w b, Forall all_bytes (w_texts w) -> all_bytes (text w b).
Proof.
  intros w b H. unfold text. destruct (nth_in_or_default b (w_texts w) []) as [Hi|Hd].
  - rewrite Forall_forall in H. apply H. exact Hi.
  - rewrite Hd. constructor.
Qed.

Lemma shown_ext : forall t1 t2 t, (forall e, In e (elements t) -> t1 (fst e) = t2 (fst e)) -> shown t1 t = shown t2 t.
Proof. intros t1 t2 t H. unfold shown. apply map_ext_in. intros e He. rewrite (H e He). reflexivity. Qed.
Lemma shown_rebalance : forall tx t, shown tx (rebalance t) = shown tx t.
Proof. intros. unfold shown. rewrite Hre. reflexivity. Qed.

Lemma nth_none : forall {A B} (l : list A) (m : list B) n, length l = length m -> nth_error m n = None -> nth_error l n = None.
Proof. intros A B l m n H1 H2. apply nth_error_None in H2. apply nth_error_None. lia. Qed.

(** one call with a dictionary replaced *)
Lemma related_set_dict : forall w i used used' d t t0,
  related w i used -> nth_error (w_dicts w) d = Some t0 -> (forall h, In h used -> In h used') ->
  (forall e, In e (elements t) -> exists h, In h used' /\ nth_error (w_names w) h = Some (fst e)) ->
  sm_sorted (shown (text w) t) ->
  related (set_dict w d t) (put_dict i d (shown (text w) t)) used'.
Proof.
  intros w i used used' d t t0 R Hd Hu Hk Hs. assert (Hdl : d < length (w_dicts w)) by (apply nth_error_Some; congruence).
  destruct R as [R1 R2 R3 R4 R5 R6 R7 R8].
  constructor; unfold set_dict, put_dict; cbn [w_texts w_names w_dicts i_names i_dicts].
  - exact R1.
  - exact R2.
  - exact R3.
  - intros h1 h2 b H1 H2 Hne. destruct (R4 h1 h2 b H1 H2 Hne) as [A B]. split; apply Hu; assumption.
  - rewrite !put_length by lia. exact R5.
  - intros d' t' H'. destruct (Nat.eq_dec d d') as [<- |Hne].
    + rewrite nth_error_put_same in H' by exact Hdl. injection H' as <-. rewrite nth_error_put_same by lia. reflexivity.
    + rewrite nth_error_put_other in H' by assumption. rewrite nth_error_put_other by (try lia; exact Hne). apply (R6 d' t' H').
  - intros d' t' H'. destruct (Nat.eq_dec d d') as [<- |Hne].
    + rewrite nth_error_put_same in H' by exact Hdl. injection H' as <-. exact Hs.
    + rewrite nth_error_put_other in H' by assumption. apply (R7 d' t' H').
  - intros d' t' e H' He. destruct (Nat.eq_dec d d') as [<- |Hne].
    + rewrite nth_error_put_same in H' by exact Hdl. injection H' as <-. apply Hk. exact He.
    + rewrite nth_error_put_other in H' by assumption. destruct (R8 d' t' e H' He) as (h & A & B). exists h. split; [apply Hu; exact A|exact B].
Qed.

(** the handles that must not be changed after a call *)
Definition used_after (names : nat) (used : list nat) (o : op) (x : out) : list nat :=
  match o, x with
  | Put _ h _ _, _ => h :: used
  | KeyAt _ _, ODone => names :: used
  | _, _ => used
  end.
Definition allowed (used : list nat) (o : op) : Prop := match o with SetName h _ => ~ In h used | _ => True end.

Lemma related_weaken : forall w i used used', related w i used -> (forall h, In h used -> In h used') -> related w i used'.
Proof.
  intros w i used used' [R1 R2 R3 R4 R5 R6 R7 R8] Hu. constructor; auto.
  - intros h1 h2 b H1 H2 Hne. destruct (R4 h1 h2 b H1 H2 Hne) as [A B]. split; apply Hu; assumption.
  - intros d t e Hd He. destruct (R8 d t e Hd He) as (h & A & B). exists h. split; [apply Hu; exact A|exact B].
Qed.

Lemma put_id : forall i d m, nth_error (i_dicts i) d = Some m -> put_dict i d m = i.
Proof.
  intros [n l] d m H. unfold put_dict. cbn [i_dicts i_names] in *. f_equal. revert d H. induction l as [|a l IH]; intros [|d] H; try discriminate.
  - injection H as ->. reflexivity.
  - cbn [firstn skipn app]. f_equal. apply IH. exact H.
Qed.

Lemma step_related : forall w i used o, related w i used -> op_bytes o -> allowed used o ->
  snd (step rebalance w o) = snd (ideal_step i o)
  /\ related (fst (step rebalance w o)) (fst (ideal_step i o)) (used_after (length (w_names w)) used o (snd (step rebalance w o))).
Proof.
  intros w i used o R Hb Hal. pose proof R as R0. destruct R as [R1 R2 R3 R4 R5 R6 R7 R8].
  destruct o as [t|h t| |d h v ow|d h|d h|d|d j|d]; cbn [step ideal_step].
  - (* NewName *)
    cbn [fst snd used_after]. split; [reflexivity|].
    assert (Htx : forall b, b < length (w_texts w) -> nth b (w_texts w ++ [t]) [] = text w b).
    { intros b Hlb. unfold text. apply app_nth1. exact Hlb. }
    assert (Hkb : forall d t0 e, nth_error (w_dicts w) d = Some t0 -> In e (elements t0) -> fst e < length (w_texts w)).
    { intros d t0 e Hd He. destruct (R8 d t0 e Hd He) as (h & _ & Hh). apply (R3 h (fst e) Hh). }
    assert (Hsh : forall d t0, nth_error (w_dicts w) d = Some t0 -> shown (fun b => nth b (w_texts w ++ [t]) []) t0 = shown (text w) t0).
    { intros d t0 Hd. apply shown_ext. intros e He. apply Htx. apply (Hkb d t0 e Hd He). }
    constructor; unfold text; cbn [w_texts w_names w_dicts i_names i_dicts].
    + apply Forall_app. split; [exact R1|]. constructor; [exact Hb|constructor].
    + rewrite !app_length. cbn [length]. lia.
    + intros h b H. rewrite app_length. cbn [length]. destruct (Nat.lt_ge_cases h (length (w_names w))) as [Hh|Hh].
      * rewrite nth_error_app1 in H by exact Hh. destruct (R3 h b H) as [A B]. split; [lia|]. rewrite nth_error_app1 by lia. rewrite B. f_equal. symmetry. apply Htx. exact A.
      * assert (h = length (w_names w)).
        { assert (Hs : h < length (w_names w ++ [length (w_texts w)])) by (apply nth_error_Some; congruence). rewrite app_length in Hs. cbn [length] in Hs. lia. }
        subst h. rewrite nth_error_app2, Nat.sub_diag in H by lia. injection H as <-. split; [lia|]. rewrite nth_error_app2 by lia. rewrite R2, Nat.sub_diag.
        cbn [nth_error]. f_equal. rewrite app_nth2 by lia. rewrite Nat.sub_diag. reflexivity.
    + intros h1 h2 b H1 H2 Hne.
      assert (Hcase : forall h, nth_error (w_names w ++ [length (w_texts w)]) h = Some b ->
        (h < length (w_names w) /\ nth_error (w_names w) h = Some b /\ b < length (w_texts w)) \/ (h = length (w_names w) /\ b = length (w_texts w))).
      { intros h H. destruct (Nat.lt_ge_cases h (length (w_names w))) as [Hh|Hh].
        - left. rewrite nth_error_app1 in H by exact Hh. split; [exact Hh|]. split; [exact H|]. apply (R3 h b H).
        - right. assert (Hs : h < length (w_names w ++ [length (w_texts w)])) by (apply nth_error_Some; congruence). rewrite app_length in Hs. cbn [length] in Hs.
          assert (h = length (w_names w)) by lia. subst h. rewrite nth_error_app2, Nat.sub_diag in H by lia. injection H as <-. split; reflexivity. }
      destruct (Hcase h1 H1) as [(A1 & A2 & A3)|(A1 & A2)]; destruct (Hcase h2 H2) as [(B1 & B2 & B3)|(B1 & B2)]; try lia.
      apply (R4 h1 h2 b); assumption.
    + exact R5.
    + intros d t0 Hd. change (nth_error (i_dicts i) d = Some (shown (fun b => nth b (w_texts w ++ [t]) []) t0)). rewrite (Hsh d t0 Hd). apply R6. exact Hd.
    + intros d t0 Hd. change (sm_sorted (shown (fun b => nth b (w_texts w ++ [t]) []) t0)). rewrite (Hsh d t0 Hd). apply (R7 d t0 Hd).
    + intros d t0 e Hd He. destruct (R8 d t0 e Hd He) as (h & A & B). exists h. split; [exact A|]. rewrite nth_error_app1; [exact B|]. apply nth_error_Some. congruence.
  - (* SetName *)
    destruct (nth_error (w_names w) h) as [b|] eqn:Eh.
    2:{ rewrite (nth_none _ _ _ R2 Eh). split; [reflexivity|]. exact R0. }
    destruct (R3 h b Eh) as [Hbl Hn]. rewrite Hn. cbn [fst snd used_after]. split; [reflexivity|].
    cbn [allowed] in Hal.
    assert (Hhl : h < length (w_names w)) by (apply nth_error_Some; congruence).
    assert (Htx : forall c, c <> b -> nth c (firstn b (w_texts w) ++ t :: skipn (S b) (w_texts w)) [] = text w c).
    { intros c Hc. unfold text. pose proof (nth_error_put_other (w_texts w) b c t Hbl (fun E => Hc (eq_sym E))) as Hp.
      destruct (nth_error (w_texts w) c) as [y|] eqn:Ec.
      - transitivity y; [apply (nth_error_nth _ _ [] Hp)|symmetry; apply (nth_error_nth _ _ [] Ec)].
      - apply nth_error_None in Hp. apply nth_error_None in Ec. transitivity (@nil N); [apply nth_overflow; exact Hp|symmetry; apply nth_overflow; exact Ec]. }
    assert (Hkb : forall d t0 e, nth_error (w_dicts w) d = Some t0 -> In e (elements t0) -> fst e <> b).
    { intros d t0 e Hd He Hf. destruct (R8 d t0 e Hd He) as (h2 & A & B). rewrite Hf in B. destruct (Nat.eq_dec h h2) as [<- |Hne]; [contradiction|].
      destruct (R4 h h2 b Eh B Hne) as [C _]. contradiction. }
    assert (Hsh : forall d t0, nth_error (w_dicts w) d = Some t0 -> shown (fun c => nth c (firstn b (w_texts w) ++ t :: skipn (S b) (w_texts w)) []) t0 = shown (text w) t0).
    { intros d t0 Hd. apply shown_ext. intros e He. apply Htx. apply (Hkb d t0 e Hd He). }
    constructor; unfold text; cbn [w_texts w_names w_dicts i_names i_dicts].
    + apply Forall_app. rewrite <- (firstn_skipn (S b) (w_texts w)) in R1. rewrite <- (firstn_skipn b (w_texts w)) in R1 at 1. split.
      * rewrite Forall_forall in *. intros y Hy. apply R1. rewrite firstn_skipn. apply in_or_app. left.
        apply (in_firstn_le _ b (S b)) in Hy; [exact Hy|lia].
      * constructor; [exact Hb|]. apply Forall_app in R1. apply R1.
    + rewrite put_length by lia. exact R2.
    + intros h2 c H2. destruct (R3 h2 c H2) as [A B]. rewrite put_length by exact Hbl. split; [exact A|].
      destruct (Nat.eq_dec h h2) as [<- |Hne].
      * rewrite Eh in H2. injection H2 as <-. rewrite nth_error_put_same by lia. f_equal. symmetry.
        apply (nth_error_nth _ _ []). apply nth_error_put_same. exact Hbl.
      * rewrite nth_error_put_other by (try lia; exact Hne). rewrite B. f_equal. symmetry. apply Htx. intros ->.
        destruct (R4 h h2 b Eh H2 Hne) as [C _]. contradiction.
    + exact R4.
    + exact R5.
    + intros d t0 Hd. change (nth_error (i_dicts i) d = Some (shown (fun c => nth c (firstn b (w_texts w) ++ t :: skipn (S b) (w_texts w)) []) t0)). rewrite (Hsh d t0 Hd). apply R6. exact Hd.
    + intros d t0 Hd. change (sm_sorted (shown (fun c => nth c (firstn b (w_texts w) ++ t :: skipn (S b) (w_texts w)) []) t0)). rewrite (Hsh d t0 Hd). apply (R7 d t0 Hd).
    + exact R8.
  - (* NewDict *)
    cbn [fst snd used_after]. split; [reflexivity|].
    assert (Hcase : forall d t0, nth_error (w_dicts w ++ [Leaf]) d = Some t0 -> nth_error (w_dicts w) d = Some t0 /\ d < length (w_dicts w) \/ d = length (w_dicts w) /\ t0 = Leaf).
    { intros d t0 H. destruct (Nat.lt_ge_cases d (length (w_dicts w))) as [Hd|Hd].
      - left. rewrite nth_error_app1 in H by exact Hd. split; [exact H|exact Hd].
      - right. assert (Hs : d < length (w_dicts w ++ [Leaf])) by (apply nth_error_Some; congruence). rewrite app_length in Hs. cbn [length] in Hs.
        assert (d = length (w_dicts w)) by lia. subst d. rewrite nth_error_app2, Nat.sub_diag in H by lia. injection H as <-. split; reflexivity. }
    constructor; unfold text; cbn [w_texts w_names w_dicts i_names i_dicts]; auto.
    + rewrite !app_length. cbn [length]. lia.
    + intros d t0 H. destruct (Hcase d t0 H) as [[H1 H2]|[-> ->]].
      * rewrite nth_error_app1 by lia. apply (R6 d t0 H1).
      * rewrite nth_error_app2 by lia. rewrite R5, Nat.sub_diag. reflexivity.
    + intros d t0 H. destruct (Hcase d t0 H) as [[H1 H2]|[-> ->]]; [apply (R7 d t0 H1)|constructor].
    + intros d t0 e H He. destruct (Hcase d t0 H) as [[H1 H2]|[-> ->]]; [apply (R8 d t0 e H1 He)|destruct He].
  - (* Put *)
    destruct (nth_error (w_dicts w) d) as [t|] eqn:Ed.
    2:{ rewrite (nth_none _ _ _ R5 Ed). split; [reflexivity|]. cbn [fst snd used_after]. apply (related_weaken w i used); [exact R0|intros; right; assumption]. }
    rewrite (R6 d t Ed). destruct (nth_error (w_names w) h) as [b|] eqn:Eh.
    2:{ rewrite (nth_none _ _ _ R2 Eh). split; [reflexivity|]. cbn [fst snd used_after]. apply (related_weaken w i used); [exact R0|intros; right; assumption]. }
    destruct (R3 h b Eh) as [Hbl Hn]. rewrite Hn.
    pose proof (find_key_ok (text w) (text w b) t (R7 d t Ed)) as Hf.
    assert (Hc : (match find_key (text w) (text w b) t with Some _ => true | None => false end) = sm_contains (text w b) (shown (text w) t)).
    { unfold sm_contains. destruct (find_key (text w) (text w b) t) as [[p [x v0]]|]; destruct Hf as [Hf _]; rewrite Hf; reflexivity. }
    rewrite Hc. destruct (negb ow && sm_contains (text w b) (shown (text w) t)).
    { split; [reflexivity|]. cbn [fst snd used_after]. apply (related_weaken w i used); [exact R0|intros; right; assumption]. }
    pose proof (insert_key_ok (text w) b v t None (R7 d t Ed)) as Hi.
    assert (Hi1 : forall p e, @None nat = Some p -> In e (shown (text w) t) -> buffer_ltb (text w p) (fst e) = true) by discriminate.
    assert (Hi2 : forall p, @None nat = Some p -> buffer_ltb (text w b) (text w p) = false) by discriminate.
    specialize (Hi Hi1 Hi2). destruct (insert_key (text w) b v None t) as [t'|].
    + destruct Hi as (Hsh & Hin & _). cbn [fst snd used_after]. split; [reflexivity|]. rewrite <- Hsh, <- (shown_rebalance (text w) t').
      apply (related_set_dict w i used (h :: used) d (rebalance t') t R0 Ed).
      * intros h2 H2; right; exact H2.
      * intros e He. rewrite Hre in He. destruct (Hin e He) as [-> |He2].
        -- exists h. split; [left; reflexivity|exact Eh].
        -- destruct (R8 d t e Ed He2) as (h2 & A & B). exists h2. split; [right; exact A|exact B].
      * rewrite shown_rebalance, Hsh. apply sm_insert_sorted. apply (R7 d t Ed).
    + destruct Hi as [Hi|(p & Hp & _)]; [|discriminate]. cbn [fst snd used_after]. split; [reflexivity|]. rewrite Hi, (put_id i d _ (R6 d t Ed)).
      apply (related_weaken w i used); [exact R0|intros; right; assumption].
  - (* Get *)
    destruct (nth_error (w_dicts w) d) as [t|] eqn:Ed.
    2:{ rewrite (nth_none _ _ _ R5 Ed). split; [reflexivity|exact R0]. }
    rewrite (R6 d t Ed). destruct (nth_error (w_names w) h) as [b|] eqn:Eh.
    2:{ rewrite (nth_none _ _ _ R2 Eh). split; [reflexivity|exact R0]. }
    destruct (R3 h b Eh) as [Hbl Hn]. rewrite Hn. pose proof (find_key_ok (text w) (text w b) t (R7 d t Ed)) as Hf.
    cbn [fst snd used_after]. split; [|exact R0]. f_equal. destruct (find_key (text w) (text w b) t) as [[p [x v0]]|]; destruct Hf as [Hf _]; rewrite Hf; reflexivity.
  - (* Del *)
    destruct (nth_error (w_dicts w) d) as [t|] eqn:Ed.
    2:{ rewrite (nth_none _ _ _ R5 Ed). split; [reflexivity|exact R0]. }
    rewrite (R6 d t Ed). destruct (nth_error (w_names w) h) as [b|] eqn:Eh.
    2:{ rewrite (nth_none _ _ _ R2 Eh). split; [reflexivity|exact R0]. }
    destruct (R3 h b Eh) as [Hbl Hn]. rewrite Hn. pose proof (find_key_ok (text w) (text w b) t (R7 d t Ed)) as Hf.
    unfold sm_contains. destruct (find_key (text w) (text w b) t) as [[p [x v0]]|].
    + destruct Hf as (Hf & Hnth & Hrm). rewrite Hf. cbn [fst snd used_after]. split; [reflexivity|].
      assert (Hp : p < size t) by (rewrite size_elements; apply nth_error_Some; congruence).
      assert (Hsh : shown (text w) (rebalance (remove_at p t)) = sm_remove (text w b) (shown (text w) t)).
      { rewrite shown_rebalance, Hrm. unfold shown. rewrite (remove_at_elements t p Hp), map_app, firstn_map, skipn_map. reflexivity. }
      rewrite <- Hsh. apply (related_set_dict w i used used d (rebalance (remove_at p t)) t R0 Ed).
      * intros h2 H2; exact H2.
      * intros e He. rewrite Hre, (remove_at_elements t p Hp) in He. apply (R8 d t e Ed).
        rewrite <- (firstn_skipn p (elements t)). apply in_app_or in He. apply in_or_app. destruct He as [He|He]; [left; exact He|right].
        apply (in_skipn_le _ p (S p)) in He; [exact He|lia].
      * rewrite Hsh. apply sm_remove_sorted. apply (R7 d t Ed).
    + destruct Hf as (Hf & Hrm). rewrite Hf, Hrm, (put_id i d _ (R6 d t Ed)). split; [reflexivity|exact R0].
  - (* Clear *)
    destruct (nth_error (w_dicts w) d) as [t|] eqn:Ed.
    2:{ rewrite (nth_none _ _ _ R5 Ed). split; [reflexivity|exact R0]. }
    rewrite (R6 d t Ed). cbn [fst snd used_after]. split; [reflexivity|].
    apply (related_set_dict w i used used d Leaf t R0 Ed).
    + intros h2 H2; exact H2.
    + intros e [].
    + constructor.
  - (* KeyAt *)
    destruct (nth_error (w_dicts w) d) as [t|] eqn:Ed.
    2:{ rewrite (nth_none _ _ _ R5 Ed). split; [reflexivity|exact R0]. }
    rewrite (R6 d t Ed). unfold shown. rewrite nth_error_map. destruct (nth_error (elements t) j) as [[b v]|] eqn:Ej; cbn [option_map].
    2:{ split; [reflexivity|exact R0]. }
    cbn [fst snd used_after]. split; [reflexivity|].
    destruct (R8 d t (b, v) Ed (nth_error_In _ _ Ej)) as (h0 & Hu0 & Hh0). cbn [fst] in Hh0. destruct (R3 h0 b Hh0) as [Hbl _].
    assert (Hcase : forall h c, nth_error (w_names w ++ [b]) h = Some c -> nth_error (w_names w) h = Some c /\ h < length (w_names w) \/ h = length (w_names w) /\ c = b).
    { intros h c H. destruct (Nat.lt_ge_cases h (length (w_names w))) as [Hd|Hd].
      - left. rewrite nth_error_app1 in H by exact Hd. split; [exact H|exact Hd].
      - right. assert (Hs : h < length (w_names w ++ [b])) by (apply nth_error_Some; congruence). rewrite app_length in Hs. cbn [length] in Hs.
        assert (h = length (w_names w)) by lia. subst h. rewrite nth_error_app2, Nat.sub_diag in H by lia. injection H as <-. split; reflexivity. }
    constructor; unfold text; cbn [w_texts w_names w_dicts i_names i_dicts]; auto.
    + rewrite !app_length. cbn [length]. lia.
    + intros h c H. destruct (Hcase h c H) as [[H1 H2]|[-> ->]].
      * rewrite nth_error_app1 by lia. apply (R3 h c H1).
      * split; [exact Hbl|]. rewrite nth_error_app2 by lia. rewrite R2, Nat.sub_diag. reflexivity.
    + intros h1 h2 c H1 H2 Hne. destruct (Hcase h1 c H1) as [[A1 A2]|[A1 A2]]; destruct (Hcase h2 c H2) as [[B1 B2]|[B1 B2]].
      * destruct (R4 h1 h2 c A1 B1 Hne) as [C D]. split; right; assumption.
      * subst. split; [|left; reflexivity]. right. destruct (Nat.eq_dec h1 h0) as [-> |Hn0]; [exact Hu0|]. apply (R4 h1 h0 b A1 Hh0 Hn0).
      * subst. split; [left; reflexivity|]. right. destruct (Nat.eq_dec h2 h0) as [-> |Hn0]; [exact Hu0|]. apply (R4 h2 h0 b B1 Hh0 Hn0).
      * lia.
    + intros d0 t0 e H He. destruct (R8 d0 t0 e H He) as (h & A & B). exists h. split; [right; exact A|]. rewrite nth_error_app1; [exact B|]. apply nth_error_Some. congruence.
  - (* Show *)
    destruct (nth_error (w_dicts w) d) as [t|] eqn:Ed.
    2:{ rewrite (nth_none _ _ _ R5 Ed). split; [reflexivity|exact R0]. }
    rewrite (R6 d t Ed). split; [reflexivity|exact R0].
Qed.

Definition names_after (names : nat) (o : op) (x : out) : nat :=
  match o, x with NewName _, _ => S names | KeyAt _ _, ODone => S names | _, _ => names end.
Lemma polite_cons : forall n used o x l, polite n used ((o, x) :: l) -> allowed used o /\ polite (names_after n o x) (used_after n used o x) l.
Proof.
  intros n used o x l H. destruct o; cbn [polite allowed names_after used_after] in *; try (split; [exact I|exact H]); try exact H.
  destruct x; split; try exact I; exact H.
Qed.
Lemma names_step : forall w o, length (w_names (fst (step rebalance w o))) = names_after (length (w_names w)) o (snd (step rebalance w o)).
Proof.
  intros w o. destruct o; cbn [step names_after].
  - cbn [fst snd w_names]. rewrite app_length. cbn [length]. lia.
  - destruct (nth_error (w_names w) h); reflexivity.
  - reflexivity.
  - destruct (nth_error (w_dicts w) d); [|reflexivity]. destruct (nth_error (w_names w) h); [|reflexivity]. destruct (_ && _); [reflexivity|]. destruct (insert_key _ _ _ _ _); reflexivity.
  - destruct (nth_error (w_dicts w) d); [|reflexivity]. destruct (nth_error (w_names w) h); reflexivity.
  - destruct (nth_error (w_dicts w) d); [|reflexivity]. destruct (nth_error (w_names w) h); [|reflexivity]. destruct (find_key _ _ _) as [[? ?]|]; reflexivity.
  - destruct (nth_error (w_dicts w) d); reflexivity.
  - destruct (nth_error (w_dicts w) d); [|reflexivity]. destruct (nth_error (elements t) i) as [[? ?]|]; [|reflexivity]. cbn [fst snd w_names]. rewrite app_length. cbn [length]. lia.
  - destruct (nth_error (w_dicts w) d); reflexivity.
Qed.

Lemma run_related : forall l w i used, related w i used -> Forall op_bytes l -> polite (length (w_names w)) used (combine l (ideal_run i l)) ->
  snd (run rebalance w l) = ideal_run i l /\ exists used', related (fst (run rebalance w l)) (ideal_end i l) used'.
Proof.
  induction l as [|o l IH]; intros w i used R Hb Hp; cbn [run ideal_run ideal_end].
  - split; [reflexivity|]. exists used. exact R.
  - inversion Hb as [|? ? Hb1 Hb2]; subst. cbn [ideal_run] in Hp.
    assert (Hal : allowed used o).
    { destruct (ideal_step i o) as [i1 x]. cbn [combine] in Hp. apply polite_cons in Hp. apply Hp. }
    destruct (step_related w i used o R Hb1 Hal) as [Hx Hr]. pose proof (names_step w o) as Hn.
    destruct (step rebalance w o) as [w1 x1]. destruct (ideal_step i o) as [i1 x]. cbn [fst snd] in *. subst x1.
    cbn [combine] in Hp. apply polite_cons in Hp. destruct Hp as [_ Hp]. rewrite <- Hn in Hp.
    destruct (IH w1 i1 _ Hr Hb2 Hp) as [H1 H2]. destruct (run rebalance w1 l) as [w2 xs]. cbn [fst snd] in *. split; [rewrite H1; reflexivity|exact H2].
Qed.
Lemma related_empty : related empty_world no_names [].
Proof.
  constructor; cbn; auto.
  - intros [|h] b H; discriminate.
  - intros [|h] h2 b H; discriminate.
  - intros [|d] t H; discriminate.
  - intros [|d] t H; discriminate.
  - intros [|d] t e H; discriminate.
Qed.
Lemma history : forall l, Forall op_bytes l -> polite_history l ->
  snd (run rebalance empty_world l) = ideal_run no_names l /\ exists used, related (fst (run rebalance empty_world l)) (ideal_end no_names l) used.
Proof. intros l Hb Hp. apply (run_related l empty_world no_names []); [exact related_empty|exact Hb|exact Hp]. Qed.

Lemma run_app : forall a b w, run rebalance w (a ++ b) =
  (fst (run rebalance (fst (run rebalance w a)) b), snd (run rebalance w a) ++ snd (run rebalance (fst (run rebalance w a)) b)).
Proof.
  induction a as [|o a IH]; intros b w; cbn [app run].
  - cbn [fst snd app]. destruct (run rebalance w b); reflexivity.
  - destruct (step rebalance w o) as [w1 x]. rewrite (IH b w1). destruct (run rebalance w1 a) as [w2 xs]. cbn [fst snd]. destruct (run rebalance w2 b); reflexivity.
Qed.
Lemma ideal_run_app : forall a b w, ideal_run w (a ++ b) = ideal_run w a ++ ideal_run (ideal_end w a) b.
Proof.
  induction a as [|o a IH]; intros b w; cbn [app ideal_run ideal_end]; [reflexivity|].
  destruct (ideal_step w o) as [w1 x]. cbn [fst app]. rewrite IH. reflexivity.
Qed.
Lemma ideal_end_app : forall a b w, ideal_end w (a ++ b) = ideal_end (ideal_end w a) b.
Proof. induction a as [|o a IH]; intros b w; cbn [app ideal_end]; [reflexivity|]. apply IH. Qed.
Lemma ideal_run_length : forall l w, length (ideal_run w l) = length l.
Proof. induction l as [|o l IH]; intros w; cbn [ideal_run]; [reflexivity|]. destruct (ideal_step w o) as [w1 x]. cbn [length]. rewrite IH. reflexivity. Qed.
Lemma polite_app : forall a b n used, polite n used (a ++ b) -> polite n used a.
Proof.
  induction a as [|[o x] a IH]; intros b n used H; [exact I|]. cbn [app] in H. destruct o; cbn [polite] in *; try (eapply IH; exact H).
  - destruct H as [H1 H2]. split; [exact H1|eapply IH; exact H2].
  - destruct x; eapply IH; exact H.
Qed.
Lemma combine_app2 : forall {A B} (a1 a2 : list A) (b1 b2 : list B), length a1 = length b1 -> combine (a1 ++ a2) (b1 ++ b2) = combine a1 b1 ++ combine a2 b2.
Proof. induction a1 as [|x a1 IH]; intros a2 [|y b1] b2 H; try discriminate; [reflexivity|]. cbn [app combine]. f_equal. apply IH. cbn [length] in H. lia. Qed.
Lemma polite_history_app : forall a b, polite_history (a ++ b) -> polite_history a.
Proof. intros a b H. unfold polite_history in *. rewrite ideal_run_app, combine_app2 in H by (rewrite ideal_run_length; reflexivity). apply polite_app in H. exact H. Qed.

(** whatever the order of the elements, only an element with the text asked for is found *)
Lemma lower_bound_sound : forall tx k t x v, nth_error (elements t) (lower_bound tx k t) = Some (x, v) -> buffer_ltb (tx x) k = false.
Proof.
  intros tx k. assert (Hle : forall t, lower_bound tx k t <= size t).
  { induction t as [|l IHl y w r IHr]; cbn [lower_bound size]; [lia|]. destruct (buffer_ltb (tx y) k); lia. }
  induction t as [|l IHl y w r IHr]; intros x v H; cbn [lower_bound elements] in H; [discriminate|].
  destruct (buffer_ltb (tx y) k) eqn:E.
  - rewrite nth_error_app2 in H by (rewrite <- size_elements; lia). rewrite <- size_elements in H.
    replace (size l + 1 + lower_bound tx k r - size l) with (S (lower_bound tx k r)) in H by lia. cbn [nth_error] in H. apply (IHr x v H).
  - specialize (Hle l). destruct (Nat.lt_ge_cases (lower_bound tx k l) (size l)) as [Hlt|Hge].
    + rewrite nth_error_app1 in H by (rewrite <- size_elements; exact Hlt). apply (IHl x v H).
    + rewrite nth_error_app2 in H by (rewrite <- size_elements; exact Hge). rewrite <- size_elements in H.
      replace (lower_bound tx k l - size l) with 0 in H by lia. injection H as <- <-. exact E.
Qed.
Lemma find_key_sound : forall tx k t i x v, all_bytes k -> (forall b, all_bytes (tx b)) -> find_key tx k t = Some (i, (x, v)) -> tx x = k /\ In (x, v) (elements t).
Proof.
  intros tx k t i x v Hk Ht H. unfold find_key in H. destruct (nth_error (elements t) (lower_bound tx k t)) as [[y w]|] eqn:E; [|discriminate].
  destruct (buffer_ltb k (tx y)) eqn:E2; [discriminate|]. injection H as _ <- <-. split; [|apply (nth_error_In _ _ E)].
  apply ltb_total; [apply Ht|exact Hk|apply (lower_bound_sound tx k t y w E)|exact E2].
Qed.
(** two elements of a sorted dictionary have different texts *)
Lemma sorted_texts : forall tx (l : list (nat * nat)) e1 e2, sm_sorted (map (fun e => (tx (fst e), snd e)) l) -> In e1 l -> In e2 l -> e1 <> e2 -> tx (fst e1) <> tx (fst e2).
Proof.
  intros tx. induction l as [|a l IH]; intros e1 e2 Hs H1 H2 Hne; [destruct H1|]. cbn [map] in Hs. inversion Hs as [|? ? Hs2 Hall]; subst. rewrite Forall_forall in Hall. cbn [fst] in Hall.
  assert (Hlt : forall e, In e l -> buffer_ltb (tx (fst a)) (tx (fst e)) = true).
  { intros e He. apply (Hall (tx (fst e), snd e)). apply in_map_iff. exists e. split; [reflexivity|exact He]. }
  destruct H1 as [<- |H1]; destruct H2 as [<- |H2].
  - contradiction.
  - intros Heq. specialize (Hlt e2 H2). rewrite Heq, ltb_irrefl in Hlt. discriminate.
  - intros Heq. specialize (Hlt e1 H1). rewrite <- Heq, ltb_irrefl in Hlt. discriminate.
  - apply (IH e1 e2 Hs2 H1 H2 Hne).
Qed.

Lemma renamed : forall l d h v k t,
  Forall op_bytes (l ++ [Put d h v false]) -> all_bytes t -> polite_history (l ++ [Put d h v false]) ->
  nth_error (i_names (ideal_end no_names l)) h = Some k -> last (ideal_run no_names (l ++ [Put d h v false])) OBadHandle = ODone -> t <> k ->
  let probe := [SetName h t; NewName k; Get d (length (i_names (ideal_end no_names l)))] in
  last (ideal_run no_names (l ++ [Put d h v false] ++ probe)) OBadHandle = OFound (Some v)
  /\ last (snd (run rebalance empty_world (l ++ [Put d h v false] ++ probe))) OBadHandle = OFound None.
Proof.
  intros l d h v k t Hb Ht Hp Hk Hlast Hne probe.
  assert (Hb1 : Forall op_bytes l) by (apply Forall_app in Hb; apply Hb).
  destruct (history l Hb1 (polite_history_app _ _ Hp)) as [Hrun (used & R)].
  set (w := fst (run rebalance empty_world l)) in *. set (i := ideal_end no_names l) in *.
  assert (Hkb : all_bytes k).
  { destruct (nth_error (w_names w) h) as [b|] eqn:Eh.
    - destruct (r_name w i used R h b Eh) as [_ Hn]. rewrite Hn in Hk. injection Hk as <-. apply text_bytes. apply (r_texts w i used R).
    - apply (nth_none _ _ _ (r_len w i used R)) in Eh. congruence. }
  assert (Hend : last (ideal_run no_names (l ++ [Put d h v false])) OBadHandle = snd (ideal_step i (Put d h v false))).
  { rewrite ideal_run_app. fold i. cbn [ideal_run]. destruct (ideal_step i (Put d h v false)) as [i1 x]. cbn [snd]. rewrite last_last. reflexivity. }
  rewrite Hend in Hlast. clear Hend. cbn [ideal_step] in Hlast. rewrite Hk in Hlast.
  destruct (nth_error (i_dicts i) d) as [m|] eqn:Em; [|discriminate]. destruct (sm_contains k m) eqn:Ec; cbn [negb andb snd] in Hlast; [discriminate|]. clear Hlast.
  destruct (nth_error (w_dicts w) d) as [t0|] eqn:Ed.
  2:{ apply (nth_none _ _ _ (r_dlen w i used R)) in Ed. congruence. }
  pose proof (r_dict w i used R d t0 Ed) as Hm. rewrite Em in Hm. injection Hm as ->.
  pose proof (r_sorted w i used R d t0 Ed) as Hs.
  assert (Hok : sm_keys_ok (shown (text w) t0)).
  { unfold sm_keys_ok, shown. rewrite Forall_forall. intros e He. apply in_map_iff in He. destruct He as (e0 & <- & _). cbn [fst]. apply text_bytes. apply (r_texts w i used R). }
  assert (Hdl : d < length (w_dicts w)) by (apply nth_error_Some; congruence).
  destruct (nth_error (w_names w) h) as [b|] eqn:Eh.
  2:{ apply (nth_none _ _ _ (r_len w i used R)) in Eh. congruence. }
  destruct (r_name w i used R h b Eh) as [Hbl Hn]. rewrite Hn in Hk. injection Hk as Hkt.
  assert (Hhl : h < length (i_names i)) by (apply nth_error_Some; congruence).
  assert (Hnone : sm_find k (shown (text w) t0) = None).
  { unfold sm_contains in Ec. destruct (sm_find k (shown (text w) t0)); [discriminate|reflexivity]. }
  split.
  - (* the expected answer *)
    rewrite ideal_run_app. fold i. cbn [app ideal_run]. unfold probe. cbn [ideal_step]. rewrite Em, Hn, Hkt, Ec. cbn [negb andb put_dict i_names i_dicts].
    cbn [ideal_run ideal_step put_dict i_names i_dicts]. rewrite Hn. cbn [ideal_run ideal_step put_dict i_names i_dicts].
    rewrite nth_error_put_same by (apply nth_error_Some; congruence).
    rewrite nth_error_app2 by (rewrite put_length by exact Hhl; lia). rewrite put_length by exact Hhl. rewrite Nat.sub_diag. cbn [nth_error].
    change [ODone; ODone; ODone; OFound (sm_find k (sm_insert k v (shown (text w) t0)))] with ([ODone; ODone; ODone] ++ [OFound (sm_find k (sm_insert k v (shown (text w) t0)))]).
    rewrite app_assoc, last_last. f_equal.
    rewrite (sm_find_insert _ k v k Hs Hok Hkb Hkb). rewrite Hnone. destruct (list_eq_dec N.eq_dec k k); [reflexivity|contradiction].
  - rewrite run_app. fold w. cbn [fst snd app run]. unfold probe. cbn [step run]. rewrite Ed, Eh, Hkt.
    pose proof (find_key_ok (text w) k t0 Hs) as Hf.
    destruct (find_key (text w) k t0) as [[p [x v0]]|]; [destruct Hf as [Hf _]; congruence|]. clear Hf. cbn [negb andb].
    pose proof (insert_key_ok (text w) b v t0 None Hs) as Hi.
    assert (Hi1 : forall p e, @None nat = Some p -> In e (shown (text w) t0) -> buffer_ltb (text w p) (fst e) = true) by discriminate.
    assert (Hi2 : forall p, @None nat = Some p -> buffer_ltb (text w b) (text w p) = false) by discriminate.
    specialize (Hi Hi1 Hi2). rewrite Hkt in Hi.
    assert (Hins : In (k, v) (sm_insert k v (shown (text w) t0))).
    { apply sm_find_in; [apply sm_insert_sorted; exact Hs|apply sm_insert_keys_ok; assumption|exact Hkb|].
      rewrite (sm_find_insert _ k v k Hs Hok Hkb Hkb). rewrite Hnone. destruct (list_eq_dec N.eq_dec k k); [reflexivity|contradiction]. }
    destruct (insert_key (text w) b v None t0) as [t1|].
    2:{ exfalso. destruct Hi as [Hi|(p & Hp2 & _)]; [|discriminate]. rewrite Hi in Hins. apply sm_find_in in Hins; try assumption. congruence. }
    destruct Hi as (Hsh & Hin & _). cbn [run step set_dict w_names w_texts w_dicts]. rewrite Eh. cbn [run step set_dict w_names w_texts w_dicts].
    rewrite nth_error_put_same by exact Hdl.
    rewrite nth_error_app2 by (rewrite (r_len w i used R); lia). rewrite (r_len w i used R), Nat.sub_diag. cbn [nth_error].
    set (w' := {| w_texts := _; w_names := _; w_dicts := _ |}).
    change (last (snd (run rebalance empty_world l) ++ [ODone; ODone; ODone] ++ [OFound (match find_key (text w') (text w' (length (w_texts {| w_texts := firstn b (w_texts w) ++ t :: skipn (S b) (w_texts w); w_names := w_names w; w_dicts := w_dicts w |}))) (rebalance t1) with Some (_, (_, v1)) => Some v1 | None => None end)]) OBadHandle = OFound None).
    rewrite app_assoc, last_last. cbn [w_texts].
    assert (Hlen : length (firstn b (w_texts w) ++ t :: skipn (S b) (w_texts w)) = length (w_texts w)) by (apply put_length; exact Hbl).
    assert (Hk' : text w' (length (firstn b (w_texts w) ++ t :: skipn (S b) (w_texts w))) = k).
    { unfold text, w'. cbn [w_texts]. rewrite app_nth2 by lia. rewrite Nat.sub_diag. reflexivity. }
    rewrite Hk'. f_equal. destruct (find_key (text w') k (rebalance t1)) as [[p [x y]]|] eqn:Ef; [exfalso|reflexivity].
    assert (Hb' : Forall all_bytes (w_texts w')).
    { unfold w'. cbn [w_texts]. pose proof (r_texts w i used R) as R1. rewrite Forall_forall in R1 |- *. intros z Hz.
      apply in_app_or in Hz. destruct Hz as [Hz|[<- |[]]]; [|exact Hkb]. apply in_app_or in Hz. destruct Hz as [Hz|[<- |Hz]].
      - apply R1. rewrite <- (firstn_skipn b (w_texts w)). apply in_or_app. left; exact Hz.
      - exact Ht.
      - apply R1. rewrite <- (firstn_skipn (S b) (w_texts w)). apply in_or_app. right; exact Hz. }
    destruct (find_key_sound (text w') k (rebalance t1) p x y Hkb (fun c => text_bytes w' c Hb') Ef) as [Hx Hel].
    rewrite Hre in Hel.
    assert (Htb : text w' b = t).
    { unfold text, w'. cbn [w_texts]. rewrite app_nth1 by lia. apply (nth_error_nth _ _ []). apply nth_error_put_same. exact Hbl. }
    destruct (Nat.eq_dec x b) as [-> |Hxb]; [congruence|].
    assert (Hxl : x < length (w_texts w)).
    { destruct (Hin (x, y) Hel) as [He|He]; [injection He as -> _; contradiction|]. destruct (r_keys w i used R d t0 (x, y) Ed He) as (h2 & _ & Hh2).
      apply (r_name w i used R h2 x Hh2). }
    assert (Htx : text w' x = text w x).
    { unfold text, w'. cbn [w_texts]. rewrite app_nth1 by lia. apply nth_error_nth. rewrite nth_error_put_other by (try exact Hbl; congruence). apply nth_error_nth'. exact Hxl. }
    (* x was there before, with the text k *)
    destruct (Hin (x, y) Hel) as [He|He]; [injection He as -> _; contradiction|].
    assert (Hink : In (k, y) (shown (text w) t0)).
    { unfold shown. apply in_map_iff. exists (x, y). split; [cbn [fst snd]; congruence|exact He]. }
    apply sm_find_in in Hink; try assumption. congruence.
Qed.
End Run.

(** small trees *)
Lemma one_element : forall t k v, elements t = [(k, v)] -> t = Node Leaf k v Leaf.
Proof.
  intros [|l x y r] k v H; [discriminate|]. cbn [elements] in H. destruct (elements l) as [|e m] eqn:El.
  - cbn [app] in H. injection H as -> -> Hr. destruct l; [|cbn [elements] in El; destruct (elements l1); discriminate]. destruct r; [reflexivity|].
    cbn [elements] in Hr. destruct (elements r1); discriminate.
  - cbn [app] in H. injection H as _ H. destruct m; discriminate.
Qed.

Definition shared_names (k t : bytes) : list op :=
  [NewName k; NewName k; NewDict; NewDict; Put 0 0 1 false; Put 1 1 2 false; KeyAt 0 0; SetName 2 t; Get 1 0].
Lemma shared : forall rebalance k t, (forall x, elements (rebalance x) = elements x) -> all_bytes k -> all_bytes t -> t <> k ->
  last (ideal_run no_names (shared_names k t)) OBadHandle = OFound (Some 2)
  /\ last (snd (run rebalance empty_world (shared_names k t))) OBadHandle = OFound None.
Proof.
  intros re k t Hre Hk Ht Hne. split.
  - cbv [shared_names ideal_run ideal_step no_names i_names i_dicts nth_error app sm_contains sm_find sm_insert put_dict firstn skipn negb andb last].
    rewrite ltb_irrefl. reflexivity.
  - assert (H1 : re (Node Leaf 0 1 Leaf) = Node Leaf 0 1 Leaf) by (apply one_element; rewrite Hre; reflexivity).
    assert (H2 : re (Node Leaf 1 2 Leaf) = Node Leaf 1 2 Leaf) by (apply one_element; rewrite Hre; reflexivity).
    cbv [shared_names run step empty_world w_names w_texts w_dicts nth_error app find_key lower_bound elements insert_key set_dict firstn skipn negb andb text nth length size].
    rewrite H1. cbv [elements app nth_error insert_key]. rewrite H2.
    cbv [elements app nth_error firstn skipn lower_bound nth size last]. cbn [snd].
    destruct (buffer_ltb k t) eqn:E1; cbn [nth_error Nat.add]; [reflexivity|].
    destruct (buffer_ltb t k) eqn:E2; [reflexivity|]. exfalso. apply Hne. symmetry. apply ltb_total; assumption.
Qed.

Definition twice_names (x y : bytes) : list op := [NewName x; NewName y; NewDict; Put 0 0 1 false; Put 0 1 2 false; SetName 0 y; Show 0].
Definition lost_names (a b z : bytes) : list op :=
  [NewName b; NewName a; NewDict; Put 0 0 1 false; Put 0 1 2 false; SetName 1 z; NewName a; NewName z; Get 0 2; Get 0 3; Del 0 1; Show 0].
Lemma lost : forall rebalance a b z, (forall x, size x <= 2 -> rebalance x = x) -> buffer_ltb a b = true -> buffer_ltb b z = true ->
  skipn 8 (snd (run rebalance empty_world (lost_names a b z))) = [OFound None; OFound None; OBoolean false; OList [(z, 2); (b, 1)]].
Proof.
  intros re a b z Hre Hab Hbz.
  assert (H1 : re (Node Leaf 0 1 Leaf) = Node Leaf 0 1 Leaf) by (apply Hre; cbn; lia).
  assert (H2 : re (Node (Node Leaf 1 2 Leaf) 0 1 Leaf) = Node (Node Leaf 1 2 Leaf) 0 1 Leaf) by (apply Hre; cbn; lia).
  pose proof (ltb_asym _ _ Hab) as Hba. pose proof (ltb_asym _ _ Hbz) as Hzb. pose proof (ltb_trans _ _ _ Hab Hbz) as Haz. pose proof (ltb_asym _ _ Haz) as Hza.
  cbv [lost_names run step empty_world w_names w_texts w_dicts nth_error app find_key lower_bound elements insert_key set_dict firstn skipn negb andb text nth length size map fst snd].
  repeat (first [rewrite H1|rewrite H2|rewrite Hab|rewrite Hba|rewrite Hbz|rewrite Hzb|rewrite Haz|rewrite Hza|rewrite ltb_irrefl];
    cbv [elements app nth_error firstn skipn lower_bound nth size Nat.add insert_key negb andb map fst snd]).
  reflexivity.
Qed.
Lemma twice : forall rebalance x y, (forall t, elements (rebalance t) = elements t) -> all_bytes x -> all_bytes y -> x <> y ->
  exists l, last (snd (run rebalance empty_world (twice_names x y))) OBadHandle = OList l /\ In (y, 1) l /\ In (y, 2) l
  /\ last (ideal_run no_names (twice_names x y)) OBadHandle = OList (sm_insert y 2 [(x, 1)]).
Proof.
  intros re x y Hre Hx Hy Hne.
  assert (H1 : re (Node Leaf 0 1 Leaf) = Node Leaf 0 1 Leaf) by (apply one_element; rewrite Hre; reflexivity).
  assert (Hc : buffer_ltb x y = true /\ buffer_ltb y x = false \/ buffer_ltb x y = false /\ buffer_ltb y x = true).
  { destruct (buffer_ltb x y) eqn:E1; destruct (buffer_ltb y x) eqn:E2; auto.
    - rewrite (ltb_asym _ _ E1) in E2. discriminate.
    - exfalso. apply Hne. apply ltb_total; assumption. }
  destruct Hc as [[E1 E2]|[E1 E2]].
  - exists [(y, 1); (y, 2)].
    cbv [twice_names run step empty_world ideal_run ideal_step no_names i_names i_dicts sm_contains sm_find sm_insert put_dict w_names w_texts w_dicts nth_error app find_key lower_bound elements insert_key set_dict firstn skipn negb andb text nth length size map fst snd].
    rewrite H1. cbv [elements app nth_error firstn skipn lower_bound nth size Nat.add insert_key negb andb map fst snd].
    rewrite E1, E2. cbv [elements app nth_error firstn skipn lower_bound nth size Nat.add insert_key negb andb map fst snd last]. fold elements. rewrite Hre.
    split; [reflexivity|]. split; [left; reflexivity|]. split; [right; left; reflexivity|]. reflexivity.
  - exists [(y, 2); (y, 1)].
    cbv [twice_names run step empty_world ideal_run ideal_step no_names i_names i_dicts sm_contains sm_find sm_insert put_dict w_names w_texts w_dicts nth_error app find_key lower_bound elements insert_key set_dict firstn skipn negb andb text nth length size map fst snd].
    rewrite H1. cbv [elements app nth_error firstn skipn lower_bound nth size Nat.add insert_key negb andb map fst snd].
    rewrite E1, E2. cbv [elements app nth_error firstn skipn lower_bound nth size Nat.add insert_key negb andb map fst snd last]. fold elements. rewrite Hre.
    split; [reflexivity|]. split; [right; left; reflexivity|]. split; [left; reflexivity|]. reflexivity.
Qed.

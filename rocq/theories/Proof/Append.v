(** Lemmas for appending documents. *)
From Coq Require Import String List NArith ZArith Bool Lia.
From Verif.Model Require Import Base Arith Token Buffer Equality Duplicates DeepCopy PageTree Append.
From Verif.Spec Require Import PageTree DeepCopy Append.
From Verif.Proof Require Import Tac Equality Duplicates DeepCopy PageTree.
From Verif.Props Require Import PageTree DeepCopy.
Import ListNotations.
Local Open Scope N_scope.

Lemma beqb_eq : forall a b, bytes_eqb a b = true <-> a = b.
Proof.
  induction a as [|x a IH]; intros [|y b]; cbn [bytes_eqb]; try (split; congruence).
  rewrite andb_true_iff, IH, N.eqb_eq. split; [intros [-> ->]; reflexivity|intros [= -> ->]; auto].
Qed.
Lemma beqb_refl : forall a, bytes_eqb a a = true.
Proof. intros. apply beqb_eq. reflexivity. Qed.
Lemma beqb_neq : forall a b, a <> b -> bytes_eqb a b = false.
Proof. intros a b H. destruct (bytes_eqb a b) eqn:E; [|reflexivity]. apply beqb_eq in E. contradiction. Qed.

(** ** Entries *)
Lemma get_del_other : forall k k' l, k <> k' -> entry_get k (entry_del k' l) = entry_get k l.
Proof.
  intros k k' l H. unfold entry_del. induction l as [|[a v] l IH]; [reflexivity|]. cbn [filter fst entry_get].
  destruct (bytes_eqb a k') eqn:E; cbn [negb entry_get].
  - apply beqb_eq in E. subst. rewrite (beqb_neq k' k) by congruence. exact IH.
  - rewrite IH. reflexivity.
Qed.
Lemma get_del_same : forall k l, entry_get k (entry_del k l) = None.
Proof.
  intros k l. unfold entry_del. induction l as [|[a v] l IH]; [reflexivity|]. cbn [filter fst].
  destruct (bytes_eqb a k) eqn:E; cbn [negb]; [exact IH|]. cbn [entry_get]. rewrite E. exact IH.
Qed.
Lemma get_put_same : forall k v l, entry_get k (entry_put k v l) = Some v.
Proof. intros. unfold entry_put. cbn [entry_get]. rewrite beqb_refl. reflexivity. Qed.
Lemma get_put_other : forall k k' v l, k <> k' -> entry_get k (entry_put k' v l) = entry_get k l.
Proof. intros. unfold entry_put. cbn [entry_get]. rewrite beqb_neq by congruence. apply get_del_other. assumption. Qed.

Lemma list_N_eqb_eq : forall a b, list_N_eqb a b = true <-> a = b.
Proof.
  induction a as [|x a IH]; intros [|y b]; cbn [list_N_eqb]; try (split; congruence).
  rewrite andb_true_iff, IH, N.eqb_eq. split; [intros [-> ->]; reflexivity|intros [= -> ->]; auto].
Qed.
Lemma opt_eqb_eq : forall A (eqb : A -> A -> bool), (forall x y, eqb x y = true <-> x = y) -> forall a b, opt_eqb eqb a b = true <-> a = b.
Proof. intros A eqb H [x|] [y|]; cbn [opt_eqb]; try (split; congruence). rewrite H. split; congruence. Qed.
Lemma refs_back : forall ks, ref_numbers (map (fun n => VRef n 0) ks) = Some ks.
Proof. induction ks as [|k ks IH]; [reflexivity|]. cbn [map ref_numbers]. rewrite IH. reflexivity. Qed.

(** ** Nodes *)
Definition changed (a b : node) : Prop :=
  b = a \/ (exists p n, a = Page p /\ b = Page (Some n)) \/
  (exists c ks par c' ks', a = Tree c ks par /\ b = Tree (Some c') ks' par /\ (ks' = ks \/ exists x, ks' = Some x)).

Lemma node_page : forall v p, node_of v = Page p -> exists l, v = VDict l /\ entry_get (str "Type") l = Some (VName (str "Page")) /\ p = parent_entry l.
Proof.
  intros v p H. unfold node_of in H. destruct v; try discriminate. exists l. split; [reflexivity|].
  destruct (entry_get (str "Type") l) as [[| | | |t| | | | | ]|]; try discriminate.
  destruct (bytes_eqb t (str "Page")) eqn:E; [apply beqb_eq in E; subst; split; congruence|].
  destruct (bytes_eqb t (str "Pages")); discriminate.
Qed.
Lemma node_tree : forall v c ks par, node_of v = Tree c ks par ->
  exists l, v = VDict l /\ entry_get (str "Type") l = Some (VName (str "Pages")) /\ c = count_entry l /\ ks = kids_entry l /\ par = parent_entry l.
Proof.
  intros v c ks par H. unfold node_of in H. destruct v; try discriminate. exists l. split; [reflexivity|].
  destruct (entry_get (str "Type") l) as [[| | | |t| | | | | ]|]; try discriminate.
  destruct (bytes_eqb t (str "Page")) eqn:E; [discriminate|].
  destruct (bytes_eqb t (str "Pages")) eqn:E2; [apply beqb_eq in E2; subst|discriminate]. injection H as <- <- <-. auto.
Qed.
Lemma page_node : forall l, entry_get (str "Type") l = Some (VName (str "Page")) -> node_of (VDict l) = Page (parent_entry l).
Proof. intros l H. cbn [node_of]. rewrite H. rewrite beqb_refl. reflexivity. Qed.
Lemma tree_node : forall l, entry_get (str "Type") l = Some (VName (str "Pages")) -> node_of (VDict l) = Tree (count_entry l) (kids_entry l) (parent_entry l).
Proof. intros l H. cbn [node_of]. rewrite H. reflexivity. Qed.

Lemma put_same_node : forall v, put_node v (node_of v) = v.
Proof.
  intros v. unfold put_node. destruct v; try reflexivity. destruct (node_of (VDict l)) as [p|c ks par|]; [| |reflexivity].
  - rewrite (proj2 (opt_eqb_eq _ _ N.eqb_eq p p) eq_refl). reflexivity.
  - rewrite (proj2 (opt_eqb_eq _ _ Z.eqb_eq c c) eq_refl), (proj2 (opt_eqb_eq _ _ list_N_eqb_eq ks ks) eq_refl). reflexivity.
Qed.

(** what putting a changed node does to the entries *)
Lemma put_page : forall v p n, node_of v = Page p -> p <> Some n ->
  exists l, v = VDict l /\ put_node v (Page (Some n)) = VDict (entry_put (str "Parent") (VRef n 0) l).
Proof.
  intros v p n H Hn. destruct (node_page _ _ H) as (l & -> & _). exists l. split; [reflexivity|]. unfold put_node. rewrite H.
  destruct (opt_eqb N.eqb p (Some n)) eqn:E; [apply (opt_eqb_eq _ _ N.eqb_eq) in E; contradiction|reflexivity].
Qed.
Lemma put_tree : forall v c ks par nd, node_of v = Tree c ks par -> changed (Tree c ks par) nd ->
  exists l l' c' ks', v = VDict l /\ nd = Tree c' ks' par /\ put_node v nd = VDict l' /\
    (forall k, k <> str "Count" -> k <> str "Kids" -> entry_get k l' = entry_get k l) /\ (ks' = ks -> entry_get (str "Kids") l' = entry_get (str "Kids") l) /\
    count_entry l' = c' /\ kids_entry l' = ks'.
Proof.
  intros v c ks par nd H Hc. destruct (node_tree _ _ _ _ H) as (l & -> & Ht & Ec & Ek & Ep).
  destruct Hc as [->|[(? & ? & ? & _)|(c0 & ks0 & par0 & c' & ks' & E & -> & Hks)]]; [|discriminate|].
  - rewrite <- H, put_same_node. exists l, l, c, ks. repeat split; auto.
  - injection E as <- <- <-. exists l. unfold put_node. rewrite H.
    set (l1 := if opt_eqb Z.eqb c (Some c') then l else entry_put (str "Count") (VInt (QSigned c')) l).
    set (l2 := if opt_eqb list_N_eqb ks ks' then l1 else match ks' with Some x => entry_put (str "Kids") (VArr (map (fun n => VRef n 0) x)) l1 | None => l1 end).
    assert (H1 : (forall k, k <> str "Count" -> entry_get k l1 = entry_get k l) /\ count_entry l1 = Some c').
    { unfold l1. destruct (opt_eqb Z.eqb c (Some c')) eqn:E; [apply (opt_eqb_eq _ _ Z.eqb_eq) in E; split; congruence|].
      split; [intros; apply get_put_other; assumption|]. unfold count_entry. rewrite get_put_same. reflexivity. }
    assert (H2 : (forall k, k <> str "Kids" -> entry_get k l2 = entry_get k l1) /\ (ks' = ks -> l2 = l1) /\ kids_entry l2 = ks').
    { unfold l2. destruct (opt_eqb list_N_eqb ks ks') eqn:E.
      - apply (opt_eqb_eq _ _ list_N_eqb_eq) in E. subst ks'. split; [auto|]. split; [auto|]. rewrite Ek. unfold kids_entry.
        rewrite (proj1 H1) by discriminate. reflexivity.
      - assert (En : ks' <> ks) by (intros ->; rewrite (proj2 (opt_eqb_eq _ _ list_N_eqb_eq ks ks) eq_refl) in E; discriminate).
        destruct Hks as [?|(x & ->)]; [contradiction|]. split; [intros; apply get_put_other; assumption|]. split; [contradiction|].
        unfold kids_entry. rewrite get_put_same. apply refs_back. }
    exists l2, (Some c'), ks'. repeat split; auto.
    + intros k Hk1 Hk2. rewrite (proj1 H2), (proj1 H1); auto.
    + intros ->. rewrite (proj1 (proj2 H2)) by reflexivity. apply H1. discriminate.
    + unfold count_entry. rewrite (proj1 H2) by discriminate. apply H1.
    + apply H2.
Qed.
Lemma node_put : forall v nd, changed (node_of v) nd -> node_of (put_node v nd) = nd.
Proof.
  intros v nd H. destruct (node_of v) as [p|c ks par|] eqn:E.
  - destruct H as [->|[(p0 & n & E0 & ->)|(? & ? & ? & ? & ? & ? & _)]]; [rewrite <- E, put_same_node; reflexivity| |discriminate].
    destruct (node_page _ _ E) as (l & -> & Ht & Ep). assert (Hd : p = Some n \/ p <> Some n) by (destruct p as [a|]; [destruct (N.eq_dec a n); [left|right]; congruence|right; discriminate]).
    destruct Hd as [->|Hd]; [rewrite <- E, put_same_node; reflexivity|].
    destruct (put_page _ _ _ E Hd) as (l0 & [= <-] & ->). rewrite page_node by (rewrite get_put_other; [exact Ht|discriminate]).
    unfold parent_entry. rewrite get_put_same. reflexivity.
  - destruct (put_tree _ _ _ _ _ E H) as (l & l' & c' & ks' & -> & -> & -> & Ho & Hk & Ec & Ek).
    destruct (node_tree _ _ _ _ E) as (l0 & [= <-] & Ht & _ & _ & Ep).
    rewrite tree_node by (rewrite Ho; [exact Ht|discriminate|discriminate]). rewrite Ec, Ek. f_equal. rewrite Ep. unfold parent_entry.
    rewrite Ho by discriminate. reflexivity.
  - destruct H as [->|[(? & ? & ? & _)|(? & ? & ? & ? & ? & ? & _)]]; try discriminate. rewrite <- E, put_same_node. reflexivity.
Qed.

(** ** Files *)
Lemma same_id_refl : forall i, same_id i i = true.
Proof. intros. apply same_id_eq. reflexivity. Qed.
Definition embedded (h : pheap) (i : ident) (v : value) : value :=
  if snd i =? 0 then match h (fst i) with Some nd => put_node v nd | None => v end else v.
Lemma embed_map : forall f h, embed f h = map (fun e => (fst e, embedded h (fst e) (snd e))) f.
Proof.
  intros f h. unfold embed. apply map_ext. intros [[n g] v]. unfold embedded. cbn [fst snd]. destruct (g =? 0); [|reflexivity]. destruct (h n); reflexivity.
Qed.
Lemma embed_keys : forall f h, map fst (embed f h) = map fst f.
Proof. intros. rewrite embed_map, map_map. apply map_ext. reflexivity. Qed.
Lemma lookup_map : forall f (F : ident -> value -> value) i,
  lookup_id (map (fun e => (fst e, F (fst e) (snd e))) f) i = match lookup_id f i with Some v => Some (F i v) | None => None end.
Proof.
  induction f as [|[[n g] v] f IH]; intros F i; [reflexivity|]. cbn [map lookup_id fst snd]. destruct (same_id (n, g) i) eqn:E; [|apply IH].
  apply same_id_eq in E. subst. reflexivity.
Qed.
Lemma holds_map : forall f (F : ident -> value -> value) i v,
  holds (map (fun e => (fst e, F (fst e) (snd e))) f) i v <-> exists w, holds f i w /\ v = F i w.
Proof.
  intros f F i v. unfold holds. rewrite in_map_iff. split.
  - intros ([j w] & [= <- <-] & Hin). exists w. auto.
  - intros (w & Hin & ->). exists (i, w). auto.
Qed.
Lemma view_embed : forall f h, (forall n, match view f n, h n with Some a, Some b => changed a b | None, None => True | _, _ => False end) ->
  forall n, view (embed f h) n = h n.
Proof.
  intros f h H n. specialize (H n). unfold view in *. rewrite embed_map, lookup_map. destruct (lookup_id f (n, 0)) as [v|]; [|destruct (h n); [contradiction|reflexivity]].
  unfold embedded. cbn [fst snd]. change (0 =? 0) with true. cbv iota. destruct (h n) as [nd|]; [|contradiction]. rewrite node_put by exact H. reflexivity.
Qed.
Lemma view_holds : forall f n nd, view f n = Some nd -> exists v, holds f (n, 0) v /\ node_of v = nd.
Proof.
  intros f n nd H. unfold view in H. destruct (lookup_id f (n, 0)) as [v|] eqn:E; [|discriminate]. injection H as <-. exists v. split; [|reflexivity].
  apply lookup_in. exact E.
Qed.
Lemma holds_view : forall f n v, numbers_unique f -> holds f (n, 0) v -> view f n = Some (node_of v).
Proof. intros f n v Hu H. unfold view. rewrite (in_lookup f (n, 0) v Hu H). reflexivity. Qed.
Lemma holds_unique : forall f i v w, numbers_unique f -> holds f i v -> holds f i w -> v = w.
Proof. intros f i v w Hu H1 H2. apply in_lookup in H1, H2; try assumption. congruence. Qed.
Lemma view_key : forall f n nd, view f n = Some nd -> In (n, 0) (map fst f).
Proof. intros f n nd H. destruct (view_holds _ _ _ H) as (v & Hv & _). apply in_map_iff. exists ((n, 0), v). auto. Qed.

(** ** Removing parents *)
Definition parentless (ps : list N) (i : ident) (v : value) : value :=
  if (snd i =? 0) && existsb (N.eqb (fst i)) ps then match v with VDict l => VDict (entry_del (str "Parent") l) | _ => v end else v.
Lemma drop_map : forall ps f, drop_parents ps f = map (fun e => (fst e, parentless ps (fst e) (snd e))) f.
Proof.
  intros ps f. unfold drop_parents. apply map_ext. intros [[n g] v]. unfold parentless. cbn [fst snd].
  destruct ((g =? 0) && existsb (N.eqb n) ps); reflexivity.
Qed.
Lemma drop_keys : forall ps f, map fst (drop_parents ps f) = map fst f.
Proof. intros. rewrite drop_map, map_map. apply map_ext. reflexivity. Qed.
Lemma drop_nil : forall f, drop_parents [] f = f.
Proof.
  intros f. rewrite drop_map. rewrite <- (map_id f) at 2. apply map_ext. intros [[n g] v]. unfold parentless. cbn [fst snd existsb]. rewrite andb_false_r. reflexivity.
Qed.
Lemma del_idem : forall k l, entry_del k (entry_del k l) = entry_del k l.
Proof.
  intros k l. unfold entry_del. induction l as [|e l IH]; [reflexivity|]. cbn [filter]. destruct (negb (bytes_eqb (fst e) k)) eqn:E; [|exact IH].
  cbn [filter]. rewrite E, IH. reflexivity.
Qed.
Lemma unparent_drop : forall ps p f, unparent p (drop_parents ps f) = drop_parents (ps ++ [p]) f.
Proof.
  intros ps p f. rewrite !drop_map. unfold unparent. rewrite map_map. apply map_ext. intros [[n g] v]. unfold parentless. cbn [fst snd].
  rewrite existsb_app. cbn [existsb]. rewrite orb_false_r. destruct (g =? 0) eqn:Eg; cbn [andb]; [|rewrite andb_false_r; reflexivity].
  rewrite andb_true_r. rewrite (N.eqb_sym n p) at 1. rewrite (N.eqb_sym n p). destruct (p =? n) eqn:E; [rewrite orb_true_r|rewrite orb_false_r; reflexivity].
  destruct (existsb (N.eqb n) ps); [|reflexivity]. destruct v; try reflexivity. rewrite del_idem. reflexivity.
Qed.
Lemma del_refs : forall i k l, contains_ref i (VDict (entry_del k l)) -> contains_ref i (VDict l).
Proof.
  intros i k l H. inversion H as [| |? k' x Hin Hx|]; subst. unfold entry_del in Hin. apply filter_In in Hin. eapply cr_dict; [apply Hin|exact Hx].
Qed.
Lemma parentless_refs : forall ps j v i, contains_ref i (parentless ps j v) -> contains_ref i v.
Proof. intros ps j v i H. unfold parentless in H. destruct (_ && _); [|exact H]. destruct v; try exact H. eapply del_refs; eassumption. Qed.
Lemma drop_dangling : forall ps f, no_dangling f -> no_dangling (drop_parents ps f).
Proof.
  intros ps f H i v j Hv Hj. rewrite drop_map in *. apply holds_map in Hv. destruct Hv as (w & Hw & ->). apply parentless_refs in Hj.
  destruct (H _ _ _ Hw Hj) as (x & Hx). exists (parentless ps j x). apply holds_map. eauto.
Qed.
Lemma drop_view : forall ps f n, same_shape (view f n) (view (drop_parents ps f) n) /\
  (forall c ks par, view f n = Some (Tree c ks par) -> exists par', view (drop_parents ps f) n = Some (Tree c ks par')).
Proof.
  intros ps f n. unfold view. rewrite drop_map, lookup_map. destruct (lookup_id f (n, 0)) as [v|]; [|split; [exact I|discriminate]].
  unfold parentless. cbn [fst snd]. destruct (_ && _); [|split; [apply shape_refl|eauto]].
  destruct v; try (split; [apply shape_refl|intros; eauto; discriminate]). cbn [node_of].
  rewrite get_del_other by discriminate. destruct (entry_get (str "Type") l) as [[| | | |t| | | | | ]|]; try (split; [exact I|discriminate]).
  destruct (bytes_eqb t (str "Page")); [split; [exact I|discriminate]|]. destruct (bytes_eqb t (str "Pages")); [|split; [exact I|discriminate]].
  unfold count_entry, kids_entry. rewrite !get_del_other by discriminate.
  split; [split; [reflexivity|tauto]|]. intros c ks par [= <- <- <-]. eauto.
Qed.

(** ** Copies have unused numbers of generation 0 *)
Section Keys.
Variable alloc : file_objects -> res ident.
Variable src : file_objects.
Variable P : file_objects -> Prop.
Hypothesis P_add : forall f i v, P f -> alloc f = Ok i -> P ((fst i, snd i, v) :: f).
Lemma copy_inv : forall fuel,
  (forall i st st', P (c_dst st) -> copy_object alloc src fuel i st = Ok st' -> P (c_dst st')) /\
  (forall rs st st', P (c_dst st) -> copy_refs alloc src fuel rs st = Ok st' -> P (c_dst st')).
Proof.
  assert (Hrefs : forall fuel, (forall i st st', P (c_dst st) -> copy_object alloc src fuel i st = Ok st' -> P (c_dst st')) ->
    forall rs st st', P (c_dst st) -> copy_refs alloc src fuel rs st = Ok st' -> P (c_dst st')).
  { intros fuel H. induction rs as [|r rs IH]; intros st st' Hp E; cbn [copy_refs] in E; [injection E as <-; exact Hp|].
    apply rbind_ok in E. destruct E as (st1 & E1 & E). eapply IH; [|exact E]. eapply H; eassumption. }
  induction fuel as [|fuel (IHo & IHr)]; [split; [discriminate|apply Hrefs; discriminate]|].
  assert (Ho : forall i st st', P (c_dst st) -> copy_object alloc src (S fuel) i st = Ok st' -> P (c_dst st')).
  { intros i st st' Hp E. rewrite copy_object_eq in E. destruct (assoc (c_map st) i); [injection E as <-; exact Hp|].
    destruct (lookup_id src i) as [v|]; [|injection E as <-; exact Hp]. apply rbind_ok in E. destruct E as (new & En & E).
    eapply IHr; [|exact E]. cbn [c_dst]. apply P_add; assumption. }
  split; [exact Ho|]. apply Hrefs. exact Ho.
Qed.
End Keys.

Lemma fix_keys : forall m f, map fst (fix_all m f) = map fst f.
Proof. intros m f. unfold fix_all. rewrite map_map. apply map_ext. intros [[n g] v]. destruct (is_copy m (n, g)); reflexivity. Qed.
Lemma deep_copy_keys : forall alloc src dst roots r dst', allocates alloc -> numbers_unique dst ->
  deep_copy alloc src dst roots = Ok (r, dst') -> numbers_unique dst' /\ (forall i, In i (map fst dst') -> In i (map fst dst) \/ snd i = 0).
Proof.
  intros alloc src dst roots r dst' Ha Hu E. unfold deep_copy in E. apply rbind_ok in E. destruct E as (st & E1 & E).
  apply rbind_ok in E. destruct E as (r' & E2 & E). injection E as _ <-. unfold numbers_unique. rewrite fix_keys.
  apply (proj2 (copy_inv alloc src (fun f => NoDup (map fst f) /\ forall i, In i (map fst f) -> In i (map fst dst) \/ snd i = 0)
    ltac:(intros f i v [H1 H2] Hal; destruct (Ha f) as (n & En & Hn); rewrite En in Hal; injection Hal as <-; cbn [map fst snd];
          split; [constructor; assumption|intros j [<-|Hj]; [right; reflexivity|auto]]) _)) in E1; [exact E1|].
  cbn [c_dst]. split; [exact Hu|auto].
Qed.

(** ** One page *)
Definition inner (f : file_objects) (root : N) (t : N) : Prop := below (view f) root t /\ exists c ks par, view f t = Some (Tree c ks par).

Lemma pages_below_some : forall h n l m, pages_of h n l -> below h n m -> exists nd, h m = Some nd.
Proof.
  intros h n l m Hp Hb. revert l Hp. induction Hb as [n|n c ks par k m E Hin Hb IH]; intros l Hp.
  - inversion Hp; eauto.
  - destruct (pages_of_kids _ _ _ _ _ _ E Hp) as (ks' & [= <-] & Ha). destruct (pages_all_in _ _ _ _ Ha Hin) as [lk Hk]. eauto.
Qed.
Lemma below_same : forall h h' n l m, pages_of h n l -> (forall x, below h n x -> h' x = h x) -> below h' n m -> below h n m.
Proof.
  intros h h' n l m Hp H Hb. revert l Hp H. induction Hb as [n|n c ks par k m E Hin Hb IH]; intros l Hp H; [constructor|].
  assert (E' : h n = Some (Tree c (Some ks) par)) by (rewrite <- (H n (be_refl h n)); exact E).
  destruct (pages_of_kids _ _ _ _ _ _ E' Hp) as (ks' & [= <-] & Ha). destruct (pages_all_in _ _ _ _ Ha Hin) as [lk Hk].
  eapply be_kid; [exact E'|exact Hin|]. eapply IH; [exact Hk|]. intros x Hx. apply H. eapply be_kid; eauto.
Qed.
Lemma pages_ext : forall h h' n l, (forall m, h' m = h m) -> pages_of h n l -> pages_of h' n l.
Proof. intros h h' n l H Hp. apply (proj1 (pages_shape h h') n l Hp). intros m _. rewrite H. apply shape_refl. Qed.
Lemma below_ext : forall h h' n m, (forall m, h' m = h m) -> below h n m -> below h' n m.
Proof. intros h h' n m H Hb. apply (below_shape h h'); [|exact Hb]. intros x _. rewrite H. apply shape_refl. Qed.
Lemma counts_ext : forall h h' n, (forall m, h' m = h m) -> counts_right h n -> counts_right h' n.
Proof.
  intros h h' n H Hc x c ks par l Hb E Hp. eapply (Hc x); [apply (below_ext h'); [intros; symmetry; apply H|exact Hb]|rewrite <- H; exact E|].
  eapply pages_ext; [|exact Hp]. intros; symmetry; apply H.
Qed.

Lemma renamed_get : forall m k l l', Forall2 (fun x y => fst x = fst y /\ renamed m (snd x) (snd y)) l l' ->
  match entry_get k l, entry_get k l' with Some v, Some v' => renamed m v v' | None, None => True | _, _ => False end.
Proof.
  intros m k l l' H. induction H as [|[a v] [b w] l l' [E R] H IH]; [exact I|]. cbn [fst snd] in E, R. subst b. cbn [entry_get].
  destruct (bytes_eqb a k); [exact R|exact IH].
Qed.

(** the node of the copy after the append *)
Lemma kept_refl : forall root i v, kept root i v v.
Proof. intros. left. reflexivity. Qed.
Lemma kept_trans : forall root i a b c, kept root i a b -> kept root i b c -> kept root i a c.
Proof.
  intros root i a b c [->|(l & l' & -> & -> & H)] H2; [exact H2|].
  destruct H2 as [->|(x & x' & E & -> & H')]; [right; exists l, l'; auto|]. injection E as <-. right. exists l, x'.
  split; [reflexivity|]. split; [reflexivity|]. intros k H1 H2. rewrite H', H by assumption. reflexivity.
Qed.

Section Step.
Variable alloc : file_objects -> res ident.
Hypothesis alloc_ok : allocates alloc.

Lemma copy_step : forall src dst p l droot c ks par dl,
  numbers_unique src -> no_dangling src -> holds src (p, 0) (VDict l) -> entry_get (str "Type") l = Some (VName (str "Page")) ->
  entry_get (str "Parent") l = None ->
  numbers_unique dst -> view dst droot = Some (Tree c (Some ks) par) -> pages_of (view dst) droot dl -> counts_right (view dst) droot ->
  N.of_nat (length dl) + 1 < 2 ^ 63 -> N.of_nat (length ks) + 1 < 2 ^ 63 ->
  exists F n dst1 h v, deep_copy alloc src dst [HIndirect (p, 0)] = Ok ([(n, 0)], dst1) /\
    lookup_id dst1 (n, 0) = Some v /\ node_of v = Page None /\
    (forall fuel, (F <= fuel)%nat -> append_page fuel (view dst1) droot n = (h, Ok tt)) /\
    let dst2 := embed dst1 h in
    pages_of (view dst2) droot (dl ++ [n]) /\ counts_right (view dst2) droot /\
    (exists c', view dst2 droot = Some (Tree c' (Some (ks ++ [n])) par)) /\ numbers_unique dst2 /\
    page_copy src p dst dst2 n droot /\
    (forall i w, holds dst i w -> exists w', holds dst2 i w' /\ kept droot i w w' /\ ((forall t, i = (t, 0) -> ~ inner dst droot t) -> w' = w)) /\
    (forall t, inner dst2 droot t -> inner dst droot t).
Proof.
  intros src dst p l droot c ks par dl Hus Hnd Hp Hty Hpar Hud Er Hpg Hct Hl1 Hl2.
  destruct (C31_succeeds alloc src dst [(p, 0)]) as (r & dst1 & Edc).
  { intros f. destruct (alloc_ok f) as (n & E & _). eauto. }
  { intros f i E. destruct (alloc_ok f) as (n & E' & Hn). rewrite E' in E. injection E as <-. exact Hn. }
  { intros i [<-|[]]. exists (VDict l). apply in_lookup; assumption. }
  cbn [map] in Edc. destruct (deep_copy_keys _ _ _ _ _ _ alloc_ok Hud Edc) as (Hu1 & Hk1).
  assert (Hcp : copied src dst [(p, 0)] r dst1).
  { eapply C31_copy_isomorphic_partial; [|exact Hus|exact Hud| |exact Edc].
    - intros f i E. destruct (alloc_ok f) as (n & E' & Hn). rewrite E' in E. injection E as <-. exact Hn.
    - split; [intros i [<-|[]]; eauto|]. intros i v j _ Hv Hj. eapply Hnd; eassumption. }
  destruct Hcp as (m & Hinj & Hnew & Hval & _ & Hold & Hinv & Hr). cbn [map] in Hr.
  assert (Hfp : found_from src [(p, 0)] (p, 0)) by (eapply ff_root; [left; reflexivity|exact Hp]).
  destruct (Hval _ _ Hfp Hp) as (v' & Hv' & Hren). inversion Hren as [| | | | | | | |? l' Hf2|]; subst. clear Hren.
  assert (Hgen : snd (m (p, 0)) = 0).
  { destruct (Hk1 (m (p, 0))) as [Hin|Hz]; [apply in_map_iff; exists (m (p, 0), VDict l'); auto| |exact Hz]. exfalso. exact (Hnew _ Hfp Hin). }
  destruct (m (p, 0)) as [n g] eqn:Em. cbn [snd] in Hgen. subst g.
  assert (Hent : forall k, match entry_get k l, entry_get k l' with Some v, Some v' => renamed m v v' | None, None => True | _, _ => False end).
  { intros k. apply renamed_get. exact Hf2. }
  assert (Hty' : entry_get (str "Type") l' = Some (VName (str "Page"))).
  { assert (X := Hent (str "Type")). rewrite Hty in X. destruct (entry_get (str "Type") l') as [v0|]; [|contradiction]. inversion X. reflexivity. }
  assert (Hpar' : entry_get (str "Parent") l' = None).
  { assert (X := Hent (str "Parent")). rewrite Hpar in X. destruct (entry_get (str "Parent") l'); [contradiction|reflexivity]. }
  assert (Hnode : node_of (VDict l') = Page None). { rewrite page_node by exact Hty'. unfold parent_entry. rewrite Hpar'. reflexivity. }
  assert (Hvn : view dst1 n = Some (Page None)). { rewrite (holds_view dst1 n (VDict l') Hu1 Hv'). rewrite Hnode. reflexivity. }
  assert (Hsame : forall t nd, view dst t = Some nd -> view dst1 t = Some nd).
  { intros t nd E. destruct (view_holds _ _ _ E) as (w & Hw & <-). apply (holds_view dst1 t w Hu1). apply Hold. exact Hw. }
  assert (Hb1 : forall t, below (view dst) droot t -> view dst1 t = view dst t).
  { intros t Hb. destruct (pages_below_some _ _ _ _ Hpg Hb) as (nd & E). rewrite E. apply Hsame. exact E. }
  assert (Hpg1 : pages_of (view dst1) droot dl).
  { apply (proj1 (pages_shape (view dst) (view dst1)) _ _ Hpg). intros t Hb. rewrite (Hb1 t Hb). apply shape_refl. }
  assert (Hbelow : forall t, below (view dst1) droot t -> below (view dst) droot t). { intros t. eapply below_same; eassumption. }
  assert (Her1 : view dst1 droot = Some (Tree c (Some ks) par)) by (apply Hsame; exact Er).
  assert (Hth1 : counts_there (view dst1) droot).
  { intros t c0 ks0 par0 Hb E. apply Hbelow in Hb. rewrite (Hb1 t Hb) in E. exact (right_there _ _ _ Hpg Hct t c0 ks0 par0 Hb E). }
  destruct (C40_append (view dst1) droot c ks par dl n Her1 Hpg1 Hth1 (ex_intro _ None Hvn) Hl1 Hl2)
    as (F & h & Hf & Hp2 & Hc2 & Hpn & (c' & Hroot') & Hframe & Hfr2).
  assert (Hdr : n <> droot) by (intros ->; congruence).
  assert (Hch : forall t, match view dst1 t, h t with Some a, Some b => changed a b | None, None => True | _, _ => False end).
  { intros t. destruct (N.eq_dec t n) as [->|Hn]; [rewrite Hvn, Hpn; right; left; eauto|].
    destruct (N.eq_dec t droot) as [->|Hd]; [rewrite Her1, Hroot'; right; right; do 5 eexists; split; [reflexivity|split; [reflexivity|right; eauto]]|].
    destruct (Hfr2 t Hn Hd) as [->|(c0 & ks0 & par0 & c1 & -> & ->)]; [destruct (view dst1 t); [left; reflexivity|exact I]|].
    right. right. do 5 eexists. split; [reflexivity|]. split; [reflexivity|left; reflexivity]. }
  assert (Hv2 : forall t, view (embed dst1 h) t = h t) by (apply view_embed; exact Hch).
  assert (Hnotin : forall i, ~ In i (map fst dst) -> i <> (n, 0) -> forall w, holds dst1 i w -> holds (embed dst1 h) i w).
  { intros i Hni Hin w Hw. rewrite embed_map. apply holds_map. exists w. split; [exact Hw|]. unfold embedded. destruct i as [t g]. cbn [fst snd].
    destruct (g =? 0) eqn:Eg; [|reflexivity]. apply N.eqb_eq in Eg. subst g. rewrite (Hframe t).
    - rewrite (holds_view dst1 t w Hu1 Hw), put_same_node. reflexivity.
    - congruence.
    - intros Hb. apply Hbelow in Hb. destruct (pages_below_some _ _ _ _ Hpg Hb) as (nd & E). apply Hni. eapply view_key. exact E. }
  exists F, n, dst1, h, (VDict l'). split; [exact Edc|]. split; [apply in_lookup; assumption|]. split; [exact Hnode|]. split; [exact Hf|]. cbv zeta.
  split; [eapply pages_ext; [exact Hv2|exact Hp2]|]. split; [eapply counts_ext; [exact Hv2|exact Hc2]|].
  split; [exists (Some c'); rewrite Hv2; exact Hroot'|]. split; [unfold numbers_unique; rewrite embed_keys; exact Hu1|].
  split; [|split].
  - exists m. split; [exact Em|]. split; [exact Hnew|]. split; [exact Hinj|]. split.
    + intros i v Hfi Hvi Hne. destruct (Hval _ _ Hfi Hvi) as (v1 & Hv1 & Hrn). exists v1. split; [|exact Hrn].
      apply Hnotin; [apply Hnew; exact Hfi| |exact Hv1]. intros E. apply Hne. apply Hinj; [exact Hfi|exact Hfp|congruence].
    + intros l0 Hl0. assert (El : l0 = l) by (assert (X := holds_unique _ _ _ _ Hus Hl0 Hp); congruence). subst l0.
      destruct (put_page (VDict l') None droot Hnode) as (l1 & [= <-] & Eput); [discriminate|].
      exists (entry_put (str "Parent") (VRef droot 0) l'). split; [|split].
      * rewrite embed_map. apply holds_map. exists (VDict l'). split; [exact Hv'|]. unfold embedded. cbn [fst snd]. change (0 =? 0) with true. cbv iota.
        rewrite Hpn, Eput. reflexivity.
      * apply get_put_same.
      * intros k Hk. rewrite get_put_other by exact Hk. apply Hent.
  - intros [t g] w Hw. assert (Hw1 := Hold _ _ Hw). exists (embedded h (t, g) w). split; [rewrite embed_map; apply holds_map; eauto|].
    unfold embedded. cbn [fst snd]. destruct (g =? 0) eqn:Eg; [|split; [apply kept_refl|reflexivity]]. apply N.eqb_eq in Eg. subst g.
    assert (Evd := holds_view dst1 t w Hu1 Hw1).
    assert (Htn : t <> n) by (intros ->; apply (Hnew _ Hfp); rewrite Em; apply in_map_iff; exists ((n, 0), w); auto).
    destruct (N.eq_dec t droot) as [->|Hd].
    + rewrite Evd in Her1. injection Her1 as Her1. rewrite Hroot'.
      assert (Hcr : changed (Tree c (Some ks) par) (Tree (Some c') (Some (ks ++ [n])) par)) by (right; right; do 5 eexists; split; [reflexivity|split; [reflexivity|right; eauto]]).
      destruct (put_tree _ _ _ _ _ Her1 Hcr) as (l0 & l1 & c1 & ks1 & -> & E1 & -> & Ho & _).
      split.
      * right. exists l0, l1. split; [reflexivity|]. split; [reflexivity|]. intros k H1 H2. apply Ho; [exact H1|]. intros ->. apply (H2 eq_refl). reflexivity.
      * intros Hni. exfalso. apply (Hni droot eq_refl). split; [constructor|]. eauto.
    + destruct (Hfr2 t Htn Hd) as [->|(c0 & ks0 & par0 & c1 & E0 & E1)].
      { rewrite Evd, put_same_node. split; [apply kept_refl|reflexivity]. }
      rewrite E1. rewrite Evd in E0. injection E0 as E0.
      assert (Hcr : changed (Tree (Some c0) ks0 par0) (Tree (Some c1) ks0 par0)) by (right; right; do 5 eexists; split; [reflexivity|split; [reflexivity|left; reflexivity]]).
      destruct (put_tree _ _ _ _ _ E0 Hcr) as (l0 & l1 & c2 & ks1 & -> & E2 & E3 & Ho & Hks & _). injection E2 as <- <-.
      split.
      * rewrite E3. right. exists l0, l1. split; [reflexivity|]. split; [reflexivity|]. intros k H1 _.
        destruct (bytes_eqb k (str "Kids")) eqn:Ek; [apply beqb_eq in Ek; subst k; apply Hks; reflexivity|].
        apply Ho; [exact H1|]. intros ->. rewrite beqb_refl in Ek. discriminate.
      * intros Hni. assert (Hnb : ~ below (view dst1) droot t).
        { intros Hb. apply Hbelow in Hb. apply (Hni t eq_refl). split; [exact Hb|]. rewrite <- (Hb1 t Hb), Evd, E0. eauto. }
        rewrite (Hframe t Htn Hnb), Evd in E1. injection E1 as E1. rewrite <- E1. apply put_same_node.
  - intros t [Hb (c0 & ks0 & par0 & Et)]. rewrite Hv2 in Et. apply (below_ext _ h) in Hb; [|intros; symmetry; apply Hv2].
    assert (Htn : t <> n) by (intros ->; congruence).
    assert (Hbt : below (view dst1) droot t).
    { inversion Hb as [|? c3 ks3 par3 k ? E3 Hin Hbk]; subst; [constructor|]. rewrite Hroot' in E3. injection E3 as <- <- <-.
      assert (Hno : ~ below h k droot) by (eapply not_below_itself; [exact Hroot'|exact Hp2|exact Hin]).
      apply in_app_or in Hin. destruct Hin as [Hin|[<-|[]]].
      - eapply be_kid; [exact Her1|exact Hin|]. apply (below_shape h (view dst1)); [|exact Hbk].
        intros x Hx. destruct (N.eq_dec x n) as [->|Hxn]; [rewrite Hpn, Hvn; exact I|].
        destruct (N.eq_dec x droot) as [->|Hxd]; [contradiction|].
        destruct (Hfr2 x Hxn Hxd) as [->|(ca & ka & pa & cb & -> & ->)]; [apply shape_refl|]. cbn. split; [reflexivity|]. split; discriminate.
      - exfalso. apply Htn. eapply below_page; [exact Hpn|exact Hbk]. }
    assert (Hb' := Hbelow t Hbt). split; [exact Hb'|]. rewrite <- (Hb1 t Hb').
    destruct (N.eq_dec t droot) as [->|Hd]; [eauto|]. destruct (Hfr2 t Htn Hd) as [E|(ca & ka & pa & cb & E & _)]; [rewrite <- E; eauto|eauto].
Qed.
End Step.

(** ** Names *)
Definition names_of_page (p n : N) (snames : list (bytes * dest)) : list (bytes * dest) :=
  flat_map (fun e => match snd e with DRef q => if q =? p then [(fst e, DRef n)] else [] | DIndex _ => [] end) snames.
Lemma names_of_page_in : forall p n snames k d, In (k, d) (names_of_page p n snames) <-> d = DRef n /\ In (k, DRef p) snames.
Proof.
  intros p n snames k d. unfold names_of_page. rewrite in_flat_map. split.
  - intros ([k0 [q|z]] & Hin & H); cbn [fst snd] in H; [|destruct H]. destruct (q =? p) eqn:E; [|destruct H]. apply N.eqb_eq in E. subst q.
    destruct H as [[= <- <-]|[]]. auto.
  - intros [-> Hin]. exists (k, DRef p). split; [exact Hin|]. cbn [fst snd]. rewrite N.eqb_refl. left. reflexivity.
Qed.
Lemma name_taken_spec : forall k names, name_taken k names = true <-> In k (map fst names).
Proof.
  intros k names. unfold name_taken. rewrite existsb_exists, in_map_iff. split; intros (e & H1 & H2).
  - apply beqb_eq in H2. exists e. auto.
  - exists e. split; [exact H2|]. apply beqb_eq. exact H1.
Qed.
Lemma merge_ok : forall fuel src p n snames names, numbers_unique src -> names_resolve src snames -> NoDup (map fst snames) ->
  (forall k, In (k, DRef p) snames -> ~ In k (map fst names)) ->
  merge_names fuel src p n snames names = (names ++ names_of_page p n snames, Ok tt).
Proof.
  intros fuel src p n snames. induction snames as [|[k d] t IH]; intros names Hu Hres Hnd Hfree; [cbn; rewrite app_nil_r; reflexivity|].
  destruct (Hres k d (or_introl eq_refl)) as (q & l & -> & Hq). cbn [merge_names references_page names_of_page flat_map fst snd].
  rewrite (in_lookup _ _ _ Hu Hq). cbn [map] in Hnd. inversion Hnd as [|? ? Hn Hnd']; subst.
  assert (Hres' : names_resolve src t) by (intros k0 d0 Hin; apply (Hres k0 d0); right; exact Hin).
  destruct (q =? p) eqn:E.
  - apply N.eqb_eq in E. subst q. destruct (name_taken k names) eqn:Et.
    + apply name_taken_spec in Et. exfalso. exact (Hfree k (or_introl eq_refl) Et).
    + rewrite IH; [|assumption|assumption|assumption|].
      * rewrite <- app_assoc. reflexivity.
      * intros k0 Hin. rewrite map_app, in_app_iff. intros [Hx|[<-|[]]]; [eapply Hfree; [right; exact Hin|exact Hx]|].
        apply Hn. apply in_map_iff. exists (k, DRef p). auto.
  - apply IH; [assumption|assumption|assumption|]. intros k0 Hin. apply Hfree. right. exact Hin.
Qed.

(** ** The loop *)
Lemma page_copy_later : forall src p old old' dst dst' n root,
  page_copy src p old dst n root -> (forall i, In i (map fst old') -> In i (map fst old)) ->
  (forall i v, holds dst i v -> ~ In i (map fst old) -> holds dst' i v) -> page_copy src p old' dst' n root.
Proof.
  intros src p old old' dst dst' n root (m & H1 & H2 & H3 & H4 & H5) Hk Hh. exists m. split; [exact H1|]. split; [intros i Hi Hin; exact (H2 i Hi (Hk _ Hin))|].
  split; [exact H3|]. split.
  - intros i v Hf Hv Hne. destruct (H4 i v Hf Hv Hne) as (v' & Hv' & Hr). exists v'. split; [|exact Hr]. apply Hh; [exact Hv'|apply H2; exact Hf].
  - intros l Hl. destruct (H5 l Hl) as (l' & Hl' & Hrest). exists l'. split; [|exact Hrest]. apply Hh; [exact Hl'|]. rewrite <- H1. apply H2.
    eapply ff_root; [left; reflexivity|exact Hl].
Qed.
Lemma kept_keys : forall dst dst' (R : ident -> value -> value -> Prop),
  (forall i w, holds dst i w -> exists w', holds dst' i w' /\ R i w w') -> forall i, In i (map fst dst) -> In i (map fst dst').
Proof.
  intros dst dst' R H i Hi. apply in_map_iff in Hi. destruct Hi as ([j w] & <- & Hin). destruct (H _ _ Hin) as (w' & Hw' & _).
  apply in_map_iff. exists (j, w'). auto.
Qed.

Lemma pages_are_pages : forall h,
  (forall n l, pages_of h n l -> forall p, In p l -> is_page h p) /\ (forall ks l, pages_of_all h ks l -> forall p, In p l -> is_page h p).
Proof.
  intros h. apply po_mut.
  - intros n par E p [<-|[]]. exists par. exact E.
  - auto.
  - intros p [].
  - intros k ks l l' _ H1 _ H2 p Hin. apply in_app_or in Hin. destruct Hin; auto.
Qed.

Section Loop.
Variable alloc : file_objects -> res ident.
Hypothesis alloc_ok : allocates alloc.
Variable src : file_objects.
Hypothesis src_unique : numbers_unique src.
Hypothesis src_closed : no_dangling src.
Variable sroot : N.
Variable sl : list N.
Hypothesis src_pages : pages_of (view src) sroot sl.
Hypothesis src_root : is_pages (view src) sroot.
Hypothesis src_counts : counts_right (view src) sroot.
Hypothesis src_small : N.of_nat (List.length sl) + 1 < 2 ^ 63.
Hypothesis sl_distinct : NoDup sl.
Variable snames : list (bytes * dest).
Hypothesis snames_ok : names_resolve src snames.
Hypothesis snames_distinct : NoDup (map fst snames).

Lemma dropped_unique : forall ps, numbers_unique (drop_parents ps src).
Proof. intros. unfold numbers_unique. rewrite drop_keys. exact src_unique. Qed.
Lemma dropped_page : forall ps, exists F, forall fuel, (F <= fuel)%nat -> forall i p, nth_error sl (N.to_nat i - 1) = Some p -> 1 <= i ->
  get_page fuel (view (drop_parents ps src)) sroot i = Ok p.
Proof.
  intros ps. apply C39_page; [| | |exact src_small].
  - apply (proj1 (pages_shape (view src) _) _ _ src_pages). intros m _. apply drop_view.
  - destruct src_root as (c & ks & par & E). destruct (drop_view ps src sroot) as [_ H]. destruct (H _ _ _ E) as (par' & E'). do 3 eexists. exact E'.
  - intros n c ks par l Hb E Hp. destruct (drop_view ps src n) as [Hs Ht].
    apply shape_sym in Hs. destruct (shape_tree _ _ _ _ _ Hs E) as (c' & p & E' & _). destruct (Ht _ _ _ E') as (par' & E2). rewrite E2 in E. injection E as <- _.
    eapply src_counts; [|exact E'|].
    + eapply (below_shape (view (drop_parents ps src))); [|exact Hb]. intros x _. apply shape_sym. apply drop_view.
    + eapply (proj1 (pages_shape (view (drop_parents ps src)) _)); [exact Hp|]. intros x _. apply shape_sym. apply drop_view.
Qed.
Lemma dropped_names : forall ps, names_resolve (drop_parents ps src) snames.
Proof.
  intros ps k d Hin. destruct (snames_ok k d Hin) as (p & l & -> & Hp). exists p.
  assert (X : exists l', parentless ps (p, 0) (VDict l) = VDict l') by (unfold parentless; destruct (_ && _); eauto). destruct X as (l' & El).
  exists l'. split; [reflexivity|]. rewrite drop_map. apply holds_map. exists (VDict l). auto.
Qed.
Lemma dropped_entry : forall ps p, In p ps -> In p sl ->
  exists l, holds (drop_parents ps src) (p, 0) (VDict l) /\ entry_get (str "Type") l = Some (VName (str "Page")) /\ entry_get (str "Parent") l = None.
Proof.
  intros ps p Hps Hin. destruct (proj1 (pages_are_pages _) _ _ src_pages p Hin) as (par & E). destruct (view_holds _ _ _ E) as (v & Hv & En).
  destruct (node_page _ _ En) as (l & -> & Ht & _). exists (entry_del (str "Parent") l). split; [|split].
  - rewrite drop_map. apply holds_map. exists (VDict l). split; [exact Hv|]. unfold parentless. cbn [fst snd].
    assert (X : existsb (N.eqb p) ps = true) by (apply existsb_exists; exists p; split; [exact Hps|apply N.eqb_refl]). rewrite X. reflexivity.
  - rewrite get_del_other by discriminate. exact Ht.
  - apply get_del_same.
Qed.

Lemma append_loop : forall rest done_ dst names i droot c ks par dl,
  sl = done_ ++ rest -> N.to_nat i = S (List.length done_) ->
  numbers_unique dst -> view dst droot = Some (Tree c (Some ks) par) -> pages_of (view dst) droot dl -> counts_right (view dst) droot ->
  N.of_nat (List.length dl) + N.of_nat (List.length rest) < 2 ^ 63 -> N.of_nat (List.length ks) + N.of_nat (List.length rest) < 2 ^ 63 ->
  (forall k, In k (map fst snames) -> In k (map fst names) -> exists q, In q done_ /\ In (k, DRef q) snames) ->
  exists F dst' names' nl,
    (forall fuel, (F <= fuel)%nat -> append_from alloc fuel snames sroot droot i (List.length rest) {| a_src := drop_parents done_ src; a_dst := dst; a_names := names |}
       = ({| a_src := drop_parents sl src; a_dst := dst'; a_names := names' |}, Ok tt)) /\
    pages_of (view dst') droot (dl ++ nl) /\ counts_right (view dst') droot /\ List.length nl = List.length rest /\
    (forall j p n, nth_error rest j = Some p -> nth_error nl j = Some n -> page_copy (drop_parents (done_ ++ firstn (S j) rest) src) p dst dst' n droot) /\
    (forall x w, holds dst x w -> exists w', holds dst' x w' /\ kept droot x w w' /\ ((forall t, x = (t, 0) -> ~ inner dst droot t) -> w' = w)) /\
    (forall t, inner dst' droot t -> inner dst droot t) /\
    (forall k d, In (k, d) names' <-> In (k, d) names \/ exists j p n, nth_error rest j = Some p /\ nth_error nl j = Some n /\ d = DRef n /\ In (k, DRef p) snames).
Proof.
  change (2 ^ 63) with 9223372036854775808 in *.
  induction rest as [|p rest IH]; intros done_ dst names i droot c ks par dl Hsl Hi Hud Er Hpg Hct Hl1 Hl2 Hnames.
  - exists O, dst, names, []. rewrite app_nil_r in Hsl. subst done_. split; [reflexivity|]. rewrite app_nil_r. split; [exact Hpg|]. split; [exact Hct|].
    split; [reflexivity|]. split; [intros [|j] ? ? E; discriminate|]. split; [intros x w Hw; exists w; split; [exact Hw|]; split; [apply kept_refl|reflexivity]|].
    split; [auto|]. intros k d. split; [auto|]. intros [H|([|j] & ? & ? & E & _)]; [exact H|discriminate|discriminate].
  - set (src1 := drop_parents (done_ ++ [p]) src).
    assert (Hinp : In p sl) by (rewrite Hsl; apply in_or_app; right; left; reflexivity).
    destruct (dropped_entry (done_ ++ [p]) p ltac:(apply in_or_app; right; left; reflexivity) Hinp) as (l & Hl & Hty & Hpar).
    destruct (copy_step alloc alloc_ok src1 dst p l droot c ks par dl (dropped_unique _) (drop_dangling _ _ src_closed) Hl Hty Hpar Hud Er Hpg Hct)
      as (F1 & n & dst1 & h & v & Edc & Elk & Hnode & Hap & Hpg2 & Hct2 & (c' & Er2) & Hud2 & Hpc & Hfr & Hin2).
    { change (2 ^ 63) with 9223372036854775808. cbn [List.length] in Hl1. lia. } { change (2 ^ 63) with 9223372036854775808. cbn [List.length] in Hl2. lia. }
    assert (Hfree : forall k, In (k, DRef p) snames -> ~ In k (map fst names)).
    { intros k Hk Hk2. destruct (Hnames k) as (q & Hq & Hq2); [apply in_map_iff; exists (k, DRef p); auto|exact Hk2|].
      assert (Epq : DRef p = DRef q).
      { revert snames_distinct Hk Hq2. clear. induction snames as [|[a b] t IH]; intros Hd H1 H2; [destruct H1|]. cbn [map] in Hd. inversion Hd as [|? ? Hn Hd']; subst.
        destruct H1 as [H1|H1]; destruct H2 as [H2|H2]; [congruence| | |auto]; exfalso; apply Hn.
        - injection H1 as -> _. apply in_map_iff. exists (k, DRef q). auto.
        - injection H2 as -> _. apply in_map_iff. exists (k, DRef p). auto. }
      injection Epq as <-. revert sl_distinct Hq. rewrite Hsl. clear. intros Hd Hq. apply NoDup_remove_2 in Hd. apply Hd. apply in_or_app. auto. }
    set (names1 := names ++ names_of_page p n snames).
    destruct (IH (done_ ++ [p]) (embed dst1 h) names1 (i + 1) droot c' (ks ++ [n]) par (dl ++ [n]))
      as (F2 & dst' & names' & nl & Hrun & Hpg' & Hct' & Hlen & Hpcs & Hfr' & Hin' & Hnm').
    { rewrite <- app_assoc. exact Hsl. } { rewrite app_length. cbn [List.length]. lia. } { exact Hud2. } { exact Er2. } { exact Hpg2. } { exact Hct2. }
    { rewrite app_length. cbn [List.length] in *. lia. } { rewrite app_length. cbn [List.length] in *. lia. }
    { intros k Hk Hk2. unfold names1 in Hk2. rewrite map_app, in_app_iff in Hk2. destruct Hk2 as [Hk2|Hk2].
      - destruct (Hnames k Hk Hk2) as (q & Hq & Hq2). exists q. split; [apply in_or_app; auto|exact Hq2].
      - apply in_map_iff in Hk2. destruct Hk2 as ([k0 d] & E & Hin). cbn [fst] in E. subst k0. apply names_of_page_in in Hin.
        exists p. split; [apply in_or_app; right; left; reflexivity|apply Hin]. }
    destruct (dropped_page done_) as (F0 & HF0).
    exists (F0 + F1 + F2)%nat, dst', names', (n :: nl). split; [|split; [|split; [|split; [|split; [|split; [|split]]]]]].
    + intros fuel Hfu. cbn [List.length append_from a_src].
      rewrite (HF0 fuel ltac:(lia) i p); [|rewrite Hsl, Hi; replace (S (List.length done_) - 1)%nat with (List.length done_) by lia;
        rewrite nth_error_app2 by lia; rewrite PeanoNat.Nat.sub_diag; reflexivity|lia].
      unfold append_page_copy. cbn [a_src a_dst a_names]. rewrite unparent_drop. fold src1. rewrite Edc. rewrite Elk, Hnode. cbn [fst].
      rewrite (Hap fuel ltac:(lia)). rewrite merge_ok; [|apply dropped_unique|apply dropped_names|exact snames_distinct|exact Hfree].
      apply Hrun. lia.
    + rewrite <- app_assoc in Hpg'. exact Hpg'.
    + exact Hct'.
    + cbn [List.length]. congruence.
    + intros [|j] q m Eq Em; cbn [nth_error] in Eq, Em.
      * injection Eq as <-. injection Em as <-. cbn [firstn]. eapply page_copy_later; [exact Hpc|auto|].
        intros x w Hw Hnx. destruct (Hfr' x w Hw) as (w' & Hw' & _ & Hsame). rewrite Hsame in Hw'; [exact Hw'|].
        intros t -> Hit. apply Hin2 in Hit. destruct Hit as [_ (c3 & ks3 & par3 & E3)]. apply Hnx. eapply view_key. exact E3.
      * assert (X := Hpcs j q m Eq Em). rewrite <- app_assoc in X. eapply page_copy_later; [exact X| |auto].
        eapply kept_keys. exact Hfr.
    + intros x w Hw. destruct (Hfr x w Hw) as (w1 & Hw1 & Hk1 & Hs1). destruct (Hfr' x w1 Hw1) as (w2 & Hw2 & Hk2 & Hs2).
      exists w2. split; [exact Hw2|]. split; [eapply kept_trans; eassumption|]. intros Hni. rewrite Hs2; [apply Hs1; exact Hni|].
      intros t Ex Hit. exact (Hni t Ex (Hin2 t Hit)).
    + intros t Hit. apply Hin2. apply Hin'. exact Hit.
    + intros k d. rewrite Hnm'. unfold names1. rewrite in_app_iff, names_of_page_in. split.
      * intros [[H|[-> H]]|(j & q & m & H1 & H2 & H3 & H4)]; [auto|right; exists O, p, n; auto|right; exists (S j), q, m; auto].
      * intros [H|([|j] & q & m & H1 & H2 & H3 & H4)]; [auto| |right; eauto 8]. cbn [nth_error] in H1, H2. injection H1 as <-. injection H2 as <-. auto.
Qed.
End Loop.

(** ** What is found is a page *)
Lemma node_at_page : forall h k v, node_at h k = Ok v -> is_tree v = false -> is_page h k.
Proof. intros h k v E H. unfold node_at in E. destruct (h k) as [[p|c ks p|]|] eqn:Eh; try discriminate; injection E as <-; [exists p; exact Eh|discriminate]. Qed.
Lemma page_loop_page : forall rec h page, (forall k a b p, rec k a b = Ok p -> is_page h p) -> forall ks processed p, page_loop rec h page processed ks = Ok p -> is_page h p.
Proof.
  intros rec h page Hrec. induction ks as [|k ks IH]; intros processed p E; cbn [page_loop] in E; [discriminate|].
  apply rbind_ok in E. destruct E as (v & Ev & E). destruct v as [par|c kks par|]; [| |].
  - destruct (negb (processed =? page)); [eapply IH; exact E|]. injection E as <-. eapply node_at_page; [exact Ev|reflexivity].
  - apply rbind_ok in E. destruct E as (kc & _ & E). destruct (_ <=? _); [eapply IH; exact E|].
    apply rbind_ok in E. destruct E as (l & _ & E). apply rbind_ok in E. destruct E as (deep & _ & E). destruct deep; [eapply Hrec; exact E|].
    apply rbind_ok in E. destruct E as (r & _ & E). apply rbind_ok in E. destruct E as (w & Ew & E). destruct (is_tree w) eqn:Et; [discriminate|].
    injection E as <-. eapply node_at_page; eassumption.
  - destruct (negb (processed =? page)); [eapply IH; exact E|]. injection E as <-. eapply node_at_page; [exact Ev|reflexivity].
Qed.
Lemma get_page_page : forall fuel h root i p, get_page fuel h root i = Ok p -> is_page h p.
Proof.
  intros fuel h root i p E. unfold get_page in E. destruct (i <? 1); [discriminate|]. revert E. generalize 1. revert root i p.
  induction fuel as [|fuel IH]; intros root i p b E; cbn [page_internal] in E; [discriminate|].
  apply rbind_ok in E. destruct E as (t & _ & E). apply rbind_ok in E. destruct E as (ks & _ & E). eapply page_loop_page; [|exact E].
  intros k a b' q. apply IH.
Qed.
Lemma unparent_page : forall p f, is_page (view f) p -> is_page (view (unparent p f)) p.
Proof.
  intros p f (par & E). rewrite <- (drop_nil f), unparent_drop. cbn [app]. destruct (drop_view [p] f p) as [H _].
  destruct (shape_page _ _ _ H E) as (par' & E'). exists par'. exact E'.
Qed.
(** a page is no page tree *)
Lemma page_no_tree : forall fuel h p i q, is_page h p -> get_page fuel h p i <> Ok q.
Proof.
  intros fuel h p i q (par & E). unfold get_page. destruct (i <? 1); [discriminate|]. destruct fuel as [|fuel]; [discriminate|].
  cbn [page_internal]. unfold tree_at. rewrite E. discriminate.
Qed.
Lemma numbered_fails : forall fuel src p n k z snames dnames, In (k, DIndex z) snames -> is_page (view src) p ->
  snd (merge_names fuel src p n snames dnames) <> Ok tt.
Proof.
  intros fuel src p n k z. induction snames as [|[k0 d] t IH]; intros dnames Hin Hp; [destruct Hin|]. cbn [merge_names].
  destruct Hin as [[= -> ->]|Hin].
  - cbn [references_page]. destruct (safe_convert uint64_t int64_t z) as [i|e| |]; cbn [rbind snd]; try discriminate.
    destruct (get_page fuel (view src) p (Z.to_N i)) as [q|e| |] eqn:E; cbn [rbind snd]; try discriminate.
    exfalso. exact (page_no_tree _ _ _ _ _ Hp E).
  - destruct (references_page fuel src p d) as [[|]|e| |]; cbn [snd]; try discriminate; [|apply IH; assumption].
    destruct (name_taken k0 dnames); [discriminate|]. apply IH; assumption.
Qed.

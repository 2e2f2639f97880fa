(** Merging equal objects keeps what the document says. *)
From Coq Require Import List NArith ZArith Bool Lia Relations.
From Verif.Model Require Import Base Arith Buffer Equality Duplicates.
From Verif.Spec Require Import Equality Duplicates.
From Verif.Proof Require Import Tac Equality.
Import ListNotations.
Open Scope N_scope.

Lemma Forall2_weaken' : forall {A B} (R R' : A -> B -> Prop) l l', (forall x y, R x y -> R' x y) -> Forall2 R l l' -> Forall2 R' l l'.
Proof. intros A B R R' l l' H. induction 1; constructor; auto. Qed.
Lemma Forall2_flip' : forall {A B} (R : A -> B -> Prop) l l', Forall2 R l l' -> Forall2 (fun y x => R x y) l' l.
Proof. induction 1; constructor; auto. Qed.
Lemma Forall2_comp : forall {A B C} (R : A -> B -> Prop) (S : B -> C -> Prop) (T : A -> C -> Prop),
  (forall x y z, R x y -> S y z -> T x z) -> forall l l' l'', Forall2 R l l' -> Forall2 S l' l'' -> Forall2 T l l''.
Proof. intros A B C R S T H l l' l'' H1. revert l''. induction H1; intros l'' H2; inversion H2; subst; constructor; eauto. Qed.

(** *** alike and similar *)
Lemma alike_trans : forall (R S T : value -> value -> Prop), (forall x y z, R x y -> S y z -> T x z) ->
  forall a b c, alike R a b -> alike S b c -> alike T a c.
Proof.
  intros R S T H a b c H1 H2. destruct H1 as [|x|n|h h' s|l l' Hl|l l' Hl|l l' x Hl|a b Ha Hb Hab];
  inversion H2; subst; try (constructor; fail);
  try (match goal with H : is_number VNull |- _ => destruct H | H : is_number (VBool _) |- _ => destruct H | H : is_number (VName _) |- _ => destruct H
    | H : is_number (VStr _ _) |- _ => destruct H | H : is_number (VArr _) |- _ => destruct H | H : is_number (VDict _) |- _ => destruct H
    | H : is_number (VStream _ _) |- _ => destruct H end; fail).
  - apply al_arr. eapply Forall2_comp; [|eassumption|eassumption]. exact H.
  - apply al_dict. eapply Forall2_comp; [|eassumption|eassumption]. cbn. intros ? ? ? (-> & ?) (-> & ?). eauto.
  - apply al_stream. eapply Forall2_comp; [|eassumption|eassumption]. cbn. intros ? ? ? (-> & ?) (-> & ?). eauto.
  - apply al_num; try assumption. eapply rst_trans; eassumption.
Qed.
Lemma alike_sym : forall (R S : value -> value -> Prop), (forall x y, R x y -> S y x) -> forall a b, alike R a b -> alike S b a.
Proof.
  intros R S H a b H1. destruct H1; try (constructor; fail).
  - constructor. apply Forall2_flip'. eapply Forall2_weaken'; [|eassumption]. cbn. auto.
  - constructor. apply Forall2_flip'. eapply Forall2_weaken'; [|eassumption]. cbn. intros ? ? (-> & ?). auto.
  - constructor. apply Forall2_flip'. eapply Forall2_weaken'; [|eassumption]. cbn. intros ? ? (-> & ?). auto.
  - apply al_num; try assumption. apply rst_sym; assumption.
Qed.
Lemma similar_trans : forall f f' f'' k a b c, similar f f' k a b -> similar f' f'' k b c -> similar f f'' k a c.
Proof. intros f f' f''. induction k as [|k IH]; intros a b c; cbn [similar]; [auto|]. apply alike_trans. exact IH. Qed.
Lemma similar_sym : forall f f' k a b, similar f f' k a b -> similar f' f k b a.
Proof. intros f f'. induction k as [|k IH]; intros a b; cbn [similar]; [auto|]. apply alike_sym. exact IH. Qed.

Definition direct (f : file_objects) : Prop := forall n g n' g', find_indirect f n g <> VRef n' g'.
Lemma target_direct : forall f v n g, direct f -> target f v <> VRef n g.
Proof. intros f v n g H. destruct v; cbn [target]; try discriminate. apply H. Qed.
Lemma alike_refl : forall (R : value -> value -> Prop), (forall x, R x x) -> forall v, (forall n g, v <> VRef n g) -> alike R v v.
Proof.
  intros R HR v Hv. destruct v; try (constructor; fail).
  - apply al_num; try exact I. apply rst_refl.
  - apply al_num; try exact I. apply rst_refl.
  - exfalso. eapply Hv. reflexivity.
  - constructor. apply Forall2_refl_in. apply Forall_forall. auto.
  - constructor. apply Forall2_refl_in. apply Forall_forall. auto.
  - constructor. apply Forall2_refl_in. apply Forall_forall. auto.
Qed.
Lemma similar_refl : forall f, direct f -> forall k v, similar f f k v v.
Proof.
  intros f Hf. induction k as [|k IH]; intros v; cbn [similar]; [exact I|]. apply alike_refl; [exact IH|].
  intros n g. apply target_direct. exact Hf.
Qed.
(** Only the targets matter. *)
Lemma similar_target : forall f f' k a b a' b', target f a = target f a' -> target f' b = target f' b' ->
  similar f f' k a b -> similar f f' k a' b'.
Proof. intros f f' k a b a' b' Ha Hb. destruct k; cbn [similar]; [auto|]. rewrite Ha, Hb. auto. Qed.
Lemma target_twice : forall f v, direct f -> target f (target f v) = target f v.
Proof. intros f v Hf. destruct (target f v) eqn:E; cbn [target]; try reflexivity. exfalso. eapply target_direct; eassumption. Qed.
Lemma find_twice : forall f n g, direct f -> target f (VRef n g) = target f (find_indirect f n g).
Proof. intros f n g Hf. change (find_indirect f n g) with (target f (VRef n g)). rewrite target_twice; auto. Qed.

(** *** Equals only answers true for objects that say the same *)
Lemma deref_target : forall f v, direct f -> deref f v = Ok (target f v).
Proof.
  intros f v Hf. destruct (deref_spec f v) as [(w & E & Hw)|(E & Hn)].
  - rewrite E. f_equal. apply (leads_unique f v); [exact Hw|]. destruct v; cbn [target]; try (constructor; discriminate).
    apply lead_next. constructor. intros n g. apply Hf.
  - exfalso. apply (Hn (target f v)). destruct v; cbn [target]; try (constructor; discriminate).
    apply lead_next. constructor. intros n g. apply Hf.
Qed.

Section Sound.
Variable f : file_objects.
Hypothesis Hf : direct f.
Let sound (a : value) : Prop := forall b, equals f a b = Ok true -> forall k, similar f f k a b.

Lemma items_sound : forall l, Forall sound l -> forall l', length l = length l' -> eq_items f l l' = Ok true ->
  forall k, Forall2 (similar f f k) l l'.
Proof.
  induction 1 as [|x l Hx Hl IH]; intros [|y l'] Hlen E k; try discriminate; [constructor|].
  cbn [eq_items] in E. apply rbind_ok in E. destruct E as (r & E1 & E2). destruct r; [|discriminate].
  constructor; [apply Hx; exact E1|]. apply IH; [cbn in Hlen; lia|exact E2].
Qed.
Lemma entries_sound : forall l, Forall (fun e => sound (snd e)) l -> forall l', length l = length l' -> eq_entries f l l' = Ok true ->
  forall k, Forall2 (fun x y => fst x = fst y /\ similar f f k (snd x) (snd y)) l l'.
Proof.
  induction 1 as [|[key x] l Hx Hl IH]; intros [|[key' y] l'] Hlen E k; try discriminate; [constructor|].
  cbn [eq_entries] in E. destruct (buffer_equals key key') eqn:Ek; [|discriminate]. apply buffer_equals_spec in Ek.
  apply rbind_ok in E. destruct E as (r & E1 & E2). destruct r; [|discriminate].
  constructor; [cbn [fst snd] in *; split; [exact Ek|apply Hx; exact E1]|]. apply IH; [cbn in Hlen; lia|exact E2].
Qed.

Lemma equals_sound : forall a, sound a.
Proof.
  assert (N1 : forall a b, is_number a -> is_number (target f b) -> equals f a b = Ok true -> number_equal a (target f b)).
  { intros a b Ha Hb E. split; [exact Ha|]. split; [exact Hb|]. destruct a; try destruct Ha; cbn [equals] in *; unfold as_number in *;
    rewrite deref_target in E by exact Hf; cbn [rbind] in E;
    (destruct (target f b); try destruct Hb; cbn; exact E). }
  induction a as [|x|q|q|n|h s|n g|l IH|l IH|l x IH] using value_ind'; intros b E k;
    (destruct k as [|k]; cbn [similar]; [exact I|]).
  - cbn [equals] in E. rewrite deref_target in E by exact Hf. cbn [rbind] in E. cbn [target].
    destruct (target f b); try discriminate. constructor.
  - cbn [equals] in E. rewrite deref_target in E by exact Hf. cbn [rbind] in E. cbn [target].
    destruct (target f b); try discriminate. injection E as E. apply Bool.eqb_prop in E. subst. constructor.
  - cbn [target]. assert (Hb : is_number (target f b)).
    { cbn [equals] in E. unfold as_number in E. rewrite deref_target in E by exact Hf. cbn [rbind] in E.
      destruct (target f b); try discriminate; exact I. }
    apply al_num; [exact I|exact Hb|]. apply rst_step. apply N1; [exact I|exact Hb|exact E].
  - cbn [target]. assert (Hb : is_number (target f b)).
    { cbn [equals] in E. unfold as_number in E. rewrite deref_target in E by exact Hf. cbn [rbind] in E.
      destruct (target f b); try discriminate; exact I. }
    apply al_num; [exact I|exact Hb|]. apply rst_step. apply N1; [exact I|exact Hb|exact E].
  - cbn [equals] in E. rewrite deref_target in E by exact Hf. cbn [rbind] in E. cbn [target].
    destruct (target f b); try discriminate. injection E as E. apply buffer_equals_spec in E. subst. constructor.
  - cbn [equals] in E. rewrite deref_target in E by exact Hf. cbn [rbind] in E. cbn [target].
    destruct (target f b); try discriminate. injection E as E. apply buffer_equals_spec in E. subst. constructor.
  - cbn [equals] in E. destruct b; try discriminate. injection E as E. apply andb_true_iff in E. destruct E as (E1 & E2).
    apply N.eqb_eq in E1, E2. subst. apply (similar_refl f Hf (S k) (VRef num gen)).
  - change (equals f (VArr l) b) with (do d <- deref f b;; match d with VArr l' =>
      if negb (Nat.eqb (length l) (length l')) then Ok false else eq_items f l l' | _ => Ok false end) in E.
    rewrite deref_target in E by exact Hf. cbn [rbind] in E. cbn [target].
    destruct (target f b) as [| | | | | | |l'| |]; try discriminate. destruct (Nat.eqb_spec (length l) (length l')); [|discriminate].
    constructor. apply items_sound; assumption.
  - change (equals f (VDict l) b) with (do d <- deref f b;; match d with VDict l' =>
      if negb (Nat.eqb (length l) (length l')) then Ok false else eq_entries f l l' | _ => Ok false end) in E.
    rewrite deref_target in E by exact Hf. cbn [rbind] in E. cbn [target].
    destruct (target f b) as [| | | | | | | |l'|]; try discriminate. destruct (Nat.eqb_spec (length l) (length l')); [|discriminate].
    constructor. apply entries_sound; assumption.
  - change (equals f (VStream l x) b) with (do d <- deref f b;; match d with VStream l' x' =>
      do r <- (if negb (Nat.eqb (length l) (length l')) then Ok false else eq_entries f l l');;
      if r then Ok (buffer_equals x x') else Ok false | _ => Ok false end) in E.
    rewrite deref_target in E by exact Hf. cbn [rbind] in E. cbn [target].
    destruct (target f b) as [| | | | | | | | |l' x']; try discriminate. apply rbind_ok in E. destruct E as (r & E1 & E2).
    destruct r; [|discriminate]. destruct (Nat.eqb_spec (length l) (length l')); [|discriminate]. cbn [negb] in E1.
    injection E2 as E2. apply buffer_equals_spec in E2. subst. constructor. apply entries_sound; assumption.
Qed.

(** … and never answers false for the object itself *)
Let selfsame (a : value) : Prop := forall r, equals f a a = Ok r -> r = true.
Lemma items_self : forall l, Forall selfsame l -> forall r, eq_items f l l = Ok r -> r = true.
Proof.
  induction 1 as [|x l Hx Hl IH]; intros r E; cbn [eq_items] in E; [congruence|].
  apply rbind_ok in E. destruct E as (r' & E1 & E2). rewrite (Hx _ E1) in E2. apply IH. exact E2.
Qed.
Lemma entries_self : forall l, Forall (fun e => selfsame (snd e)) l -> forall r, eq_entries f l l = Ok r -> r = true.
Proof.
  induction 1 as [|[key x] l Hx Hl IH]; intros r E; cbn [eq_entries] in E; [congruence|].
  assert (Ek : buffer_equals key key = true) by (apply buffer_equals_spec; reflexivity). rewrite Ek in E.
  apply rbind_ok in E. destruct E as (r' & E1 & E2). cbn [snd] in Hx. rewrite (Hx _ E1) in E2. apply IH. exact E2.
Qed.
Lemma equals_self : forall a, selfsame a.
Proof.
  induction a as [|x|q|q|n|h s|n g|l IH|l IH|l x IH] using value_ind'; intros r E.
  - cbn in E. congruence.
  - cbn in E. destruct x; cbn in E; congruence.
  - cbn [equals] in E. unfold as_number in E. rewrite deref_target in E by exact Hf. cbn [target rbind] in E.
    destruct (integer_value q); cbn [rbind] in E; try discriminate. rewrite Z.eqb_refl in E. congruence.
  - cbn [equals] in E. unfold as_number in E. rewrite deref_target in E by exact Hf. cbn [target rbind] in E.
    destruct (real_value q); cbn [rbind] in E; try discriminate.
    assert (Ed : dbl_eqb a a = true) by (apply same_real_eqb; apply same_real_refl). rewrite Ed in E. congruence.
  - cbn [equals] in E. rewrite deref_target in E by exact Hf. cbn [target rbind] in E.
    assert (Ek : buffer_equals n n = true) by (apply buffer_equals_spec; reflexivity). rewrite Ek in E. congruence.
  - cbn [equals] in E. rewrite deref_target in E by exact Hf. cbn [target rbind] in E.
    assert (Ek : buffer_equals s s = true) by (apply buffer_equals_spec; reflexivity). rewrite Ek in E. congruence.
  - cbn [equals] in E. rewrite !N.eqb_refl in E. cbn in E. congruence.
  - change (equals f (VArr l) (VArr l)) with (do d <- deref f (VArr l);; match d with VArr l' =>
      if negb (Nat.eqb (length l) (length l')) then Ok false else eq_items f l l' | _ => Ok false end) in E.
    rewrite deref_target in E by exact Hf. cbn [rbind target] in E. rewrite Nat.eqb_refl in E. cbn [negb] in E.
    eapply items_self; eassumption.
  - change (equals f (VDict l) (VDict l)) with (do d <- deref f (VDict l);; match d with VDict l' =>
      if negb (Nat.eqb (length l) (length l')) then Ok false else eq_entries f l l' | _ => Ok false end) in E.
    rewrite deref_target in E by exact Hf. cbn [rbind target] in E. rewrite Nat.eqb_refl in E. cbn [negb] in E.
    eapply entries_self; eassumption.
  - change (equals f (VStream l x) (VStream l x)) with (do d <- deref f (VStream l x);; match d with VStream l' x' =>
      do r <- (if negb (Nat.eqb (length l) (length l')) then Ok false else eq_entries f l l');;
      if r then Ok (buffer_equals x x') else Ok false | _ => Ok false end) in E.
    rewrite deref_target in E by exact Hf. cbn [rbind target] in E. rewrite Nat.eqb_refl in E. cbn [negb] in E.
    apply rbind_ok in E. destruct E as (r' & E1 & E2). rewrite (entries_self _ IH _ E1) in E2.
    assert (Ek : buffer_equals x x = true) by (apply buffer_equals_spec; reflexivity). rewrite Ek in E2. congruence.
Qed.
End Sound.

(** *** Redirected references *)
Inductive moved (f : file_objects) : value -> value -> Prop :=
| m_null : moved f VNull VNull
| m_bool : forall b, moved f (VBool b) (VBool b)
| m_int : forall q, moved f (VInt q) (VInt q)
| m_real : forall q, moved f (VReal q) (VReal q)
| m_name : forall n, moved f (VName n) (VName n)
| m_str : forall h s, moved f (VStr h s) (VStr h s)
| m_ref : forall n g n' g', says_the_same f f (VRef n g) (VRef n' g') -> moved f (VRef n g) (VRef n' g')
| m_arr : forall l l', Forall2 (moved f) l l' -> moved f (VArr l) (VArr l')
| m_dict : forall l l', Forall2 (fun x y => fst x = fst y /\ moved f (snd x) (snd y)) l l' -> moved f (VDict l) (VDict l')
| m_stream : forall l l' b, Forall2 (fun x y => fst x = fst y /\ moved f (snd x) (snd y)) l l' -> moved f (VStream l b) (VStream l' b).

Lemma moved_refl : forall f, direct f -> forall v, moved f v v.
Proof.
  intros f Hf. induction v as [|x|q|q|n|h s|n g|l IH|l IH|l x IH] using value_ind'; try (constructor; fail).
  - constructor. intros k. apply similar_refl. exact Hf.
  - constructor. apply Forall2_refl_in. exact IH.
  - constructor. apply Forall2_refl_in. eapply Forall_impl; [|exact IH]. cbn. auto.
  - constructor. apply Forall2_refl_in. eapply Forall_impl; [|exact IH]. cbn. auto.
Qed.
Lemma moved_direct : forall f v v', moved f v v' -> (forall n g, v <> VRef n g) -> forall n g, v' <> VRef n g.
Proof. intros f v v' H Hv n g. destruct H; try discriminate. exfalso. eapply Hv. reflexivity. Qed.

Section Step.
Variables f f' : file_objects.
Hypothesis Hf : direct f.
Hypothesis Hmoved : forall n g, moved f (find_indirect f n g) (find_indirect f' n g).

Lemma moved_similar : forall k v v', moved f v v' -> similar f f' k v v'.
Proof.
  assert (Hhead : forall k, (forall v v', moved f v v' -> similar f f' k v v') ->
    forall v v', moved f v v' -> (forall n g, v <> VRef n g) -> alike (similar f f' k) v v').
  { intros k IH v v' H Hv. destruct H; try (constructor; fail); try (apply al_num; try exact I; apply rst_refl).
    - exfalso. eapply Hv. reflexivity.
    - constructor. eapply Forall2_weaken'; [|eassumption]. exact IH.
    - constructor. eapply Forall2_weaken'; [|eassumption]. cbn. intros ? ? (-> & ?). auto.
    - constructor. eapply Forall2_weaken'; [|eassumption]. cbn. intros ? ? (-> & ?). auto. }
  induction k as [|k IH]; intros v v' H; cbn [similar]; [exact I|].
  destruct (match v with VRef _ _ => true | _ => false end) eqn:Ev.
  - destruct v; try discriminate. inversion H as [| | | | | |n g n' g' Hs| | |]; subst.
    specialize (Hs (S k)). cbn [similar target] in Hs. cbn [target].
    eapply alike_trans; [|exact Hs|apply (Hhead k IH)].
    + cbn. intros x y z. apply similar_trans.
    + apply Hmoved.
    + intros. apply Hf.
  - assert (Hv : forall n g, v <> VRef n g) by (intros n g ->; discriminate).
    assert (Hv' := moved_direct _ _ _ H Hv).
    assert (T : forall g w, (forall n g, w <> VRef n g) -> target g w = w) by (intros g w Hw; destruct w; try reflexivity; exfalso; eapply Hw; reflexivity).
    rewrite !T by assumption. apply Hhead; assumption.
Qed.
End Step.

(** *** The list of duplicates *)
Lemma find_objects : forall l n g, find_indirect (objects l) n g = match find_item l (n, g) with Some x => d_value x | None => VNull end.
Proof.
  induction l as [|x l IH]; intros n g; [reflexivity|]. cbn [objects map find_indirect find_item].
  unfold same_id, d_id. cbn [fst snd]. destruct ((d_num x =? n) && (d_gen x =? g)); [reflexivity|]. apply IH.
Qed.
Lemma same_id_eq : forall a b, same_id a b = true <-> a = b.
Proof.
  intros [a b] [c d]. unfold same_id. cbn [fst snd]. rewrite andb_true_iff, !N.eqb_eq. split; [intros (-> & ->); reflexivity|].
  intros E; split; congruence.
Qed.
Lemma find_item_some : forall l i x, find_item l i = Some x -> In x l /\ d_id x = i.
Proof.
  induction l as [|y l IH]; intros i x; cbn [find_item]; [discriminate|]. destruct (same_id (d_id y) i) eqn:E; intros H.
  - injection H as <-. apply same_id_eq in E. split; [left; reflexivity|exact E].
  - destruct (IH _ _ H). split; [right; assumption|assumption].
Qed.
Lemma find_item_in : forall l x, ids_distinct l -> In x l -> find_item l (d_id x) = Some x.
Proof.
  unfold ids_distinct. induction l as [|y l IH]; intros x Hd Hin; [destruct Hin|]. cbn [find_item map] in *. inversion Hd as [|? ? Hn Hd']; subst.
  destruct Hin as [->|Hin].
  - assert (E : same_id (d_id x) (d_id x) = true) by (apply same_id_eq; reflexivity). rewrite E. reflexivity.
  - destruct (same_id (d_id y) (d_id x)) eqn:E; [|apply IH; assumption]. apply same_id_eq in E. exfalso. apply Hn. rewrite E.
    apply in_map. exact Hin.
Qed.
Lemma no_reference_direct : forall l, no_reference_objects l -> direct (objects l).
Proof.
  intros l H n g n' g'. rewrite find_objects. destruct (find_item l (n, g)) eqn:E; [|discriminate].
  apply find_item_some in E. destruct E as (Hin & _). unfold no_reference_objects in H. rewrite Forall_forall in H. apply H. exact Hin.
Qed.

Section Lookup.
Variable hash : value -> N.

Lemma lookup_some : forall l h v set i, lookup l h v set = Ok (Some i) ->
  exists h', In (i, h') set /\ equals (objects l) v (find_indirect (objects l) (fst i) (snd i)) = Ok true.
Proof.
  induction set as [|[j h'] set IH]; intros i E; cbn [lookup] in E; [discriminate|].
  destruct (h =? h').
  - apply rbind_ok in E. destruct E as (r & E1 & E2). destruct r.
    + injection E2 as <-. exists h'. split; [left; reflexivity|exact E1].
    + destruct (IH _ E2) as (h'' & Hin & Heq). exists h''. split; [right; exact Hin|exact Heq].
  - destruct (IH _ E) as (h'' & Hin & Heq). exists h''. split; [right; exact Hin|exact Heq].
Qed.
Lemma lookup_none : forall l h v set, lookup l h v set = Ok None -> forall i, In (i, h) set ->
  equals (objects l) v (find_indirect (objects l) (fst i) (snd i)) = Ok false.
Proof.
  induction set as [|[j h'] set IH]; intros E i Hin; [destruct Hin|]. cbn [lookup] in E.
  destruct (N.eqb_spec h h') as [->|Hne].
  - apply rbind_ok in E. destruct E as (r & E1 & E2). destruct r; [discriminate|]. destruct Hin as [Hin|Hin]; [|apply IH; assumption].
    injection Hin as <-. exact E1.
  - destruct Hin as [Hin|Hin]; [congruence|]. apply IH; assumption.
Qed.

(** What the first loop leaves in the list: duplicates with the item of the set they are equal to.  The two never share a number. *)
Definition good_dups (l : list ditem) (uniq : list member) (dups : list (member * ident)) : Prop :=
  Forall (fun d => let '((k, h), r) := d in
     (exists x, In x l /\ d_id x = k /\ d_comp x = false /\ hash_item hash x = h /\
        equals (objects l) (d_value x) (find_indirect (objects l) (fst r) (snd r)) = Ok true) /\
     In r (map fst uniq)) dups.
Lemma scan_spec : forall l items uniq dups dups',
  (forall x, In x items -> In x l) -> NoDup (map d_id items) ->
  (forall i, In i (map fst uniq) -> ~ In i (map d_id items)) -> (forall i, In i (map (fun d => fst (fst d)) dups) -> ~ In i (map d_id items)) ->
  (forall i, In i (map fst uniq) -> ~ In i (map (fun d => fst (fst d)) dups)) -> (forall i, In i (map fst uniq) -> In i (map d_id l)) ->
  good_dups l uniq dups -> scan hash l items uniq dups = Ok dups' ->
  exists uniq', good_dups l uniq' dups' /\ (forall i, In i (map fst uniq') -> ~ In i (map (fun d => fst (fst d)) dups')) /\
    (forall i, In i (map fst uniq') -> In i (map d_id l)).
Proof.
  intros l. induction items as [|x items IH]; intros uniq dups dups' Hsub Hnd Hu Hk Huk Hul Hg E; cbn [scan] in E.
  - injection E as <-. exists uniq. auto.
  - cbn [map] in *. inversion Hnd as [|? ? Hn Hnd']; subst.
    assert (Hsub' : forall y, In y items -> In y l) by (intros; apply Hsub; right; assumption).
    assert (Hu' : forall i, In i (map fst uniq) -> ~ In i (map d_id items)) by (intros i Hi Hj; eapply Hu; [exact Hi|right; exact Hj]).
    assert (Hk' : forall i, In i (map (fun d => fst (fst d)) dups) -> ~ In i (map d_id items)) by (intros i Hi Hj; eapply Hk; [exact Hi|right; exact Hj]).
    destruct (d_comp x) eqn:Ec; [eapply IH; eassumption|].
    apply rbind_ok in E. destruct E as (r & E1 & E2). destruct r as [rep|].
    + apply rbind_ok in E2. destruct E2 as (r' & E2 & E3). destruct r' as [k|]; [eapply IH; eassumption|].
      destruct (lookup_some _ _ _ _ _ E1) as (h' & Hin & Heq).
      assert (Hrep : In rep (map fst uniq)) by (apply in_map_iff; exists (rep, h'); auto).
      eapply IH; [exact Hsub'|exact Hnd'|exact Hu'| | | | |exact E3].
      * intros i. rewrite map_app, in_app_iff. intros [Hi|[<-|[]]]; [apply Hk'; exact Hi|exact Hn].
      * intros i Hi. rewrite map_app, in_app_iff. intros [Hj|[<-|[]]]; [eapply Huk; eassumption|]. eapply Hu; [exact Hi|left; reflexivity].
      * exact Hul.
      * apply Forall_app. split; [exact Hg|]. constructor; [|constructor]. split; [|exact Hrep].
        exists x. repeat split; auto. apply Hsub. left; reflexivity.
    + eapply IH; [exact Hsub'|exact Hnd'| | | | | |exact E2].
      * intros i. rewrite map_app, in_app_iff. intros [Hi|[<-|[]]]; [apply Hu'; exact Hi|exact Hn].
      * exact Hk'.
      * intros i. rewrite map_app, in_app_iff. intros [Hi|[<-|[]]]; [apply Huk; exact Hi|]. intros Hj. eapply Hk; [exact Hj|left; reflexivity].
      * intros i. rewrite map_app, in_app_iff. intros [Hi|[<-|[]]]; [apply Hul; exact Hi|]. cbn [fst]. apply (in_map d_id). apply Hsub. left; reflexivity.
      * eapply Forall_impl; [|exact Hg]. intros [[k h] r] (H1 & H2). split; [exact H1|]. rewrite map_app, in_app_iff. auto.
Qed.
End Lookup.

(** *** Redirection *)
Inductive avoids (keys : list ident) : value -> Prop :=
| v_null : avoids keys VNull
| v_bool : forall b, avoids keys (VBool b)
| v_int : forall q, avoids keys (VInt q)
| v_real : forall q, avoids keys (VReal q)
| v_name : forall n, avoids keys (VName n)
| v_str : forall h s, avoids keys (VStr h s)
| v_ref : forall n g, ~ In (n, g) keys -> avoids keys (VRef n g)
| v_arr : forall l, Forall (avoids keys) l -> avoids keys (VArr l)
| v_dict : forall l, Forall (fun e => avoids keys (snd e)) l -> avoids keys (VDict l)
| v_stream : forall l b, Forall (fun e => avoids keys (snd e)) l -> avoids keys (VStream l b).

Definition keys_of (dups : list (member * ident)) : list ident := map (fun d => fst (fst d)) dups.
Definition container (v : value) : Prop := match v with VArr _ | VDict _ => True | _ => False end.

Lemma rep_of_spec : forall dups k, In k (keys_of dups) -> exists h, In ((k, h), rep_of dups k) dups.
Proof.
  intros dups k Hk. unfold rep_of. destruct (find (fun d => same_id (fst (fst d)) k) dups) as [[[k' h] r]|] eqn:E.
  - apply find_some in E. destruct E as (Hin & E). cbn [fst] in E. apply same_id_eq in E. subst. exists h. exact Hin.
  - exfalso. apply in_map_iff in Hk. destruct Hk as (d & Hd & Hin). eapply find_none in E; [|exact Hin].
    assert (E' : same_id (fst (fst d)) k = true) by (apply same_id_eq; exact Hd). congruence.
Qed.

Section Redirect.
Variable hash : value -> N.
Variable dups : list (member * ident).
Variable l : list ditem.

Definition red_items := fix items (e : list value) {struct e} : res (list value) :=
  match e with
  | [] => Ok []
  | x :: t => do x' <- redirect_value hash l dups x;; do t' <- items t;; Ok (x' :: t')
  end.
Definition red_entries := fix entries (e : list (bytes * value)) {struct e} : res (list (bytes * value)) :=
  match e with
  | [] => Ok []
  | (k, x) :: t => do x' <- redirect_value hash l dups x;; do t' <- entries t;; Ok ((k, x') :: t')
  end.
Lemma red_arr : forall e, redirect_value hash l dups (VArr e) = do e' <- red_items e;; Ok (VArr e').
Proof. reflexivity. Qed.
Lemma red_dict : forall e, redirect_value hash l dups (VDict e) = do e' <- red_entries e;; Ok (VDict e').
Proof. reflexivity. Qed.
Lemma red_stream : forall e b, redirect_value hash l dups (VStream e b) = do e' <- red_entries e;; Ok (VStream e' b).
Proof. reflexivity. Qed.
Lemma red_ref : forall n g, redirect_value hash l dups (VRef n g) = do i <- redirect_ref hash l dups (n, g);; Ok (VRef (fst i) (snd i)).
Proof. reflexivity. Qed.

Hypothesis Hdirect : direct (objects l).

(** A general principle: a relation that holds for redirected references and is a congruence holds for redirected values. *)
Section Lift.
Variable P : value -> value -> Prop.
Hypothesis Pleaf : forall v, match v with VRef _ _ | VArr _ | VDict _ | VStream _ _ => True | _ => P v v end.
Hypothesis Pref : forall n g i, redirect_ref hash l dups (n, g) = Ok i -> P (VRef n g) (VRef (fst i) (snd i)).
Hypothesis Parr : forall e e', Forall2 P e e' -> P (VArr e) (VArr e').
Hypothesis Pdict : forall e e', Forall2 (fun x y => fst x = fst y /\ P (snd x) (snd y)) e e' -> P (VDict e) (VDict e').
Hypothesis Pstream : forall e e' b, Forall2 (fun x y => fst x = fst y /\ P (snd x) (snd y)) e e' -> P (VStream e b) (VStream e' b).

Lemma lift_items : forall e, Forall (fun x => forall v', redirect_value hash l dups x = Ok v' -> P x v') e ->
  forall e', red_items e = Ok e' -> Forall2 P e e'.
Proof.
  induction 1 as [|x e Hx He IH]; intros e' E; cbn [red_items] in E; [injection E as <-; constructor|].
  apply rbind_ok in E. destruct E as (x' & E1 & E). apply rbind_ok in E. destruct E as (t' & E2 & E). injection E as <-.
  constructor; auto.
Qed.
Lemma lift_entries : forall e, Forall (fun x => forall v', redirect_value hash l dups (snd x) = Ok v' -> P (snd x) v') e ->
  forall e', red_entries e = Ok e' -> Forall2 (fun x y => fst x = fst y /\ P (snd x) (snd y)) e e'.
Proof.
  induction 1 as [|[k x] e Hx He IH]; intros e' E; cbn [red_entries] in E; [injection E as <-; constructor|].
  apply rbind_ok in E. destruct E as (x' & E1 & E). apply rbind_ok in E. destruct E as (t' & E2 & E). injection E as <-.
  constructor; [cbn [fst snd] in *; auto|auto].
Qed.
Lemma lift_value : forall v v', redirect_value hash l dups v = Ok v' -> P v v'.
Proof.
  induction v as [|x|q|q|n|h s|n g|e IH|e IH|e x IH] using value_ind'; intros v' E;
  try (injection E as <-; match goal with |- P ?v _ => exact (Pleaf v) end).
  - rewrite red_ref in E. apply rbind_ok in E. destruct E as (i & E1 & E). injection E as <-. apply Pref. exact E1.
  - rewrite red_arr in E. apply rbind_ok in E. destruct E as (e' & E1 & E). injection E as <-. apply Parr. eapply lift_items; eassumption.
  - rewrite red_dict in E. apply rbind_ok in E. destruct E as (e' & E1 & E). injection E as <-. apply Pdict. eapply lift_entries; eassumption.
  - rewrite red_stream in E. apply rbind_ok in E. destruct E as (e' & E1 & E). injection E as <-. apply Pstream. eapply lift_entries; eassumption.
Qed.
End Lift.

Hypothesis Hsame : forall k h r, In ((k, h), r) dups -> says_the_same (objects l) (objects l) (VRef (fst k) (snd k)) (VRef (fst r) (snd r)).

Lemma redirect_moved : forall v v', redirect_value hash l dups v = Ok v' -> moved (objects l) v v'.
Proof.
  apply lift_value; try (intros; constructor; assumption).
  - intros v. destruct v; try exact I; constructor.
  - intros n g i E. constructor. unfold redirect_ref in E. apply rbind_ok in E. destruct E as (r & E1 & E).
    destruct r as [k|]; injection E as <-; [|intros d; apply similar_refl; exact Hdirect].
    apply lookup_some in E1. destruct E1 as (h & Hin & Heq). cbn [fst snd] in Heq.
    assert (Hk : In k (keys_of dups)). { unfold keys_of. rewrite <- map_map. apply in_map_iff. exists (k, h). auto. }
    destruct (rep_of_spec _ _ Hk) as (h' & Hd). specialize (Hsame _ _ _ Hd). intros d.
    eapply similar_trans; [|apply Hsame]. assert (Hs := equals_sound _ Hdirect _ _ Heq d).
    eapply similar_target; [| |exact Hs]; symmetry; apply find_twice; exact Hdirect.
Qed.

Hypothesis Hhash : forall k h r, In ((k, h), r) dups -> exists x, find_item l k = Some x /\ hash_item hash x = h.
Hypothesis Hreps : forall k h r, In ((k, h), r) dups -> ~ In r (keys_of dups).

Lemma redirect_avoids : forall v v', redirect_value hash l dups v = Ok v' -> avoids (keys_of dups) v'.
Proof.
  intros v v' E. apply (lift_value (fun _ w => avoids (keys_of dups) w)) with (v := v); try exact E; clear E v v'.
  - intros v. destruct v; try exact I; constructor.
  - intros n g i E. constructor. rewrite <- surjective_pairing. unfold redirect_ref in E. apply rbind_ok in E. destruct E as (r & E1 & E).
    destruct r as [k|]; injection E as <-.
    + apply lookup_some in E1. destruct E1 as (h & Hin & _).
      assert (Hk : In k (keys_of dups)). { unfold keys_of. rewrite <- map_map. apply in_map_iff. exists (k, h). auto. }
      destruct (rep_of_spec _ _ Hk) as (h' & Hd). eapply Hreps; exact Hd.
    + intros Hk. unfold keys_of in Hk. apply in_map_iff in Hk. destruct Hk as ([[k h] r] & Ek & Hd). cbn [fst] in Ek. subst k.
      destruct (Hhash _ _ _ Hd) as (x & Ex & Eh). rewrite Ex in E1. rewrite Eh in E1.
      assert (Hin : In ((n, g), h) (map fst dups)) by (apply in_map_iff; exists ((n, g), h, r); auto).
      pose proof (lookup_none _ _ _ _ E1 _ Hin) as Heq. cbn [fst snd] in Heq.
      apply equals_self in Heq; [discriminate|exact Hdirect].
  - intros e e' H. constructor. clear -H. induction H; constructor; auto.
  - intros e e' H. constructor. clear -H. induction H; constructor; auto. destruct H; assumption.
  - intros e e' b H. constructor. clear -H. induction H; constructor; auto. destruct H; assumption.
Qed.
Lemma redirect_closed : forall v v', redirect_value hash l dups v = Ok v' -> closed v -> v' = v.
Proof.
  intros v v' E. apply (lift_value (fun v w => closed v -> w = v)) with (v := v); try exact E; clear E v v'.
  - intros v. destruct v; try exact I; auto.
  - intros n g i _ H. inversion H.
  - intros e e' H Hc. inversion Hc as [| | | | | |? Hl| |]; subst. f_equal. clear -H Hl. induction H; [reflexivity|]. inversion Hl; subst. f_equal; auto.
  - intros e e' H Hc. inversion Hc as [| | | | | | |? Hl|]; subst. f_equal. clear -H Hl. induction H as [|x y e e' (Hk & Hv) H IH]; [reflexivity|]. inversion Hl; subst.
    f_equal; auto. destruct x, y. cbn [fst snd] in *. f_equal; auto.
  - intros e e' b H Hc. inversion Hc as [| | | | | | | |? ? Hl]; subst. f_equal. clear -H Hl. induction H as [|x y e e' (Hk & Hv) H IH]; [reflexivity|]. inversion Hl; subst.
    f_equal; auto. destruct x, y. cbn [fst snd] in *. f_equal; auto.
Qed.
Lemma redirect_kind : forall v v', redirect_value hash l dups v = Ok v' -> (container v -> container v') /\ ((forall n g, v <> VRef n g) -> forall n g, v' <> VRef n g).
Proof.
  intros v v' E. apply redirect_moved in E. split; [destruct E; cbn; auto|]. apply (moved_direct _ _ _ E).
Qed.
End Redirect.

(** *** One round *)
Definition follows (x y : ditem) : Prop :=
  d_id x = d_id y /\ d_comp x = d_comp y /\ d_cache x = d_cache y /\ (closed (d_value x) -> d_value y = d_value x) /\
  (container (d_value x) -> container (d_value y)).
Lemma follows_refl : forall x, follows x x.
Proof. intros x. repeat split; auto. Qed.
Lemma follows_trans : forall x y z, follows x y -> follows y z -> follows x z.
Proof.
  intros x y z (A1 & A2 & A3 & A4 & A5) (B1 & B2 & B3 & B4 & B5). repeat split; try congruence; auto.
  intros Hc. rewrite <- (A4 Hc). apply B4. rewrite (A4 Hc). exact Hc.
Qed.
Definition frozen (x : ditem) : Prop := closed (d_value x) \/ (container (d_value x) /\ d_cache x <> 0).
Lemma frozen_hash : forall hash x y, follows x y -> frozen x -> hash_item hash y = hash_item hash x.
Proof.
  intros hash x y (A1 & A2 & A3 & A4 & A5) [Hc|(Hc & Hn)].
  - unfold hash_item. rewrite (A4 Hc), A3. reflexivity.
  - specialize (A5 Hc). unfold hash_item. rewrite <- A3. destruct (N.eqb_spec (d_cache x) 0); [contradiction|].
    destruct (d_value x); try destruct Hc; destruct (d_value y); try destruct A5; reflexivity.
Qed.

Lemma find_follows : forall l l' i, Forall2 follows l l' ->
  match find_item l i, find_item l' i with Some x, Some y => follows x y | None, None => True | _, _ => False end.
Proof.
  induction 1 as [|x y l l' H Hl IH]; cbn [find_item]; [exact I|]. destruct H as (E & H). rewrite <- E.
  destruct (same_id (d_id x) i); [|exact IH]. split; assumption.
Qed.
Lemma objects_step : forall f a x v b, moved f (d_value x) v -> direct f ->
  forall n g, moved f (find_indirect (objects (a ++ x :: b)) n g) (find_indirect (objects (a ++ set_value x v :: b)) n g).
Proof.
  intros f a x v b H Hf n g. rewrite !find_objects. induction a as [|y a IH]; cbn [app find_item].
  - change (d_id (set_value x v)) with (d_id x). destruct (same_id (d_id x) (n, g)); [exact H|]. apply moved_refl. exact Hf.
  - destruct (same_id (d_id y) (n, g)); [apply moved_refl; exact Hf|exact IH].
Qed.

Section OneRound.
Variable hash : value -> N.
Variable dups : list (member * ident).
Variable l0 : list ditem.
Hypothesis Hd0 : direct (objects l0).
Hypothesis Hsame0 : forall k h r, In ((k, h), r) dups -> says_the_same (objects l0) (objects l0) (VRef (fst k) (snd k)) (VRef (fst r) (snd r)).
Hypothesis Hhash0 : forall k h r, In ((k, h), r) dups -> exists x, find_item l0 k = Some x /\ hash_item hash x = h /\ frozen x.
Hypothesis Hreps : forall k h r, In ((k, h), r) dups -> ~ In r (keys_of dups).

Definition stage (l : list ditem) : Prop :=
  Forall2 follows l0 l /\ no_reference_objects l /\ (forall n g, says_the_same (objects l0) (objects l) (VRef n g) (VRef n g)) /\
  Forall2 (fun x y => says_the_same (objects l0) (objects l) (d_value x) (d_value y)) l0 l.

Lemma stage_same : forall l, stage l -> forall k h r, In ((k, h), r) dups -> says_the_same (objects l) (objects l) (VRef (fst k) (snd k)) (VRef (fst r) (snd r)).
Proof.
  intros l (_ & _ & H & _) k h r Hin d. eapply similar_trans; [apply similar_sym; apply H|]. eapply similar_trans; [|apply H].
  eapply Hsame0. exact Hin.
Qed.
Lemma stage_hash : forall l, stage l -> forall k h r, In ((k, h), r) dups -> exists x, find_item l k = Some x /\ hash_item hash x = h.
Proof.
  intros l (H & _) k h r Hin. destruct (Hhash0 _ _ _ Hin) as (x & Ex & Eh & Hf). pose proof (find_follows _ _ k H) as Hff. rewrite Ex in Hff.
  destruct (find_item l k) as [y|]; [|destruct Hff]. exists y. split; [reflexivity|]. rewrite <- Eh. apply frozen_hash; assumption.
Qed.

Lemma redirect_items_spec : forall rest before l', stage (before ++ rest) -> Forall (fun x => avoids (keys_of dups) (d_value x)) before ->
  redirect_items hash dups before rest = Ok l' -> stage l' /\ Forall (fun x => avoids (keys_of dups) (d_value x)) l'.
Proof.
  induction rest as [|x rest IH]; intros before l' Hs Ha E; cbn [redirect_items] in E.
  - injection E as <-. rewrite app_nil_r in Hs. auto.
  - apply rbind_ok in E. destruct E as (v & E1 & E2).
    assert (Hdir : direct (objects (before ++ x :: rest))) by (apply no_reference_direct; apply Hs).
    pose proof (redirect_moved _ _ _ Hdir (stage_same _ Hs) _ _ E1) as Hm.
    pose proof (redirect_avoids _ _ _ Hdir (stage_hash _ Hs) Hreps _ _ E1) as Hv.
    pose proof (redirect_closed _ _ _ _ _ E1) as Hcl.
    destruct (redirect_kind _ _ _ Hdir (stage_same _ Hs) _ _ E1) as (Hcont & Href).
    apply IH in E2; [exact E2| |].
    + destruct Hs as (S1 & S2 & S3 & S4). rewrite <- app_assoc. cbn [app].
      pose proof (objects_step _ before x v rest Hm Hdir) as Hstep.
      assert (Hsim : forall a b, moved (objects (before ++ x :: rest)) a b -> says_the_same (objects (before ++ x :: rest)) (objects (before ++ set_value x v :: rest)) a b).
      { intros a b Hab k. apply moved_similar; assumption. }
      assert (Hrefl : forall a, says_the_same (objects (before ++ x :: rest)) (objects (before ++ set_value x v :: rest)) a a).
      { intros a. apply Hsim. apply moved_refl. exact Hdir. }
      assert (Hno : forall n g, v <> VRef n g).
      { apply Href. unfold no_reference_objects in S2. apply Forall_app in S2. destruct S2 as (_ & S2). inversion S2; assumption. }
      repeat split.
      * apply Forall2_app_inv_r in S1. destruct S1 as (a & b & Ha1 & Hb1 & ->). apply Forall2_app; [exact Ha1|].
        inversion Hb1 as [|x0 ? b' ? Hx Hb2]; subst. constructor; [|exact Hb2]. eapply follows_trans; [exact Hx|].
        repeat split; auto.
      * unfold no_reference_objects in *. apply Forall_app in S2. destruct S2 as (S2 & S2'). apply Forall_app. split; [exact S2|].
        inversion S2'; subst. constructor; [exact Hno|assumption].
      * intros n g k. eapply similar_trans; [apply S3|apply Hrefl].
      * apply Forall2_app_inv_r in S4. destruct S4 as (a & b & Ha1 & Hb1 & ->). apply Forall2_app.
        -- eapply Forall2_weaken'; [|exact Ha1]. cbn. intros y z Hyz k. eapply similar_trans; [apply Hyz|apply Hrefl].
        -- inversion Hb1 as [|x0 ? b' ? Hx Hb2]; subst. constructor.
           ++ intros k. eapply similar_trans; [apply Hx|]. apply Hsim. exact Hm.
           ++ eapply Forall2_weaken'; [|exact Hb2]. cbn. intros y z Hyz k. eapply similar_trans; [apply Hyz|apply Hrefl].
    + apply Forall_app. split; [exact Ha|]. constructor; [exact Hv|constructor].
Qed.
End OneRound.

(** Releasing the duplicates when nothing refers to them any more *)
Lemma find_release : forall dups l i, ~ In i (keys_of dups) -> find_item (release dups l) i = find_item l i.
Proof.
  intros dups l i Hi. induction l as [|x l IH]; [reflexivity|]. cbn [release filter find_item].
  destruct (existsb (fun d => same_id (fst (fst d)) (d_id x)) dups) eqn:E; cbn [negb].
  - destruct (same_id (d_id x) i) eqn:Ei; [|exact IH]. apply same_id_eq in Ei. exfalso. apply Hi. apply existsb_exists in E.
    destruct E as (d & Hd & E). apply same_id_eq in E. unfold keys_of. apply in_map_iff. exists d. split; [congruence|exact Hd].
  - cbn [find_item]. destruct (same_id (d_id x) i); [reflexivity|]. exact IH.
Qed.
Lemma in_release : forall dups l x, In x (release dups l) <-> In x l /\ ~ In (d_id x) (keys_of dups).
Proof.
  intros dups l x. unfold release. rewrite filter_In. split; intros (H1 & H2); split; auto.
  - intros Hk. apply negb_true_iff in H2. apply not_true_iff_false in H2. apply H2. apply existsb_exists.
    unfold keys_of in Hk. apply in_map_iff in Hk. destruct Hk as (d & E & Hd). exists d. split; [exact Hd|]. apply same_id_eq. exact E.
  - apply negb_true_iff. apply not_true_iff_false. intros H. apply H2. apply existsb_exists in H. destruct H as (d & Hd & E).
    apply same_id_eq in E. unfold keys_of. apply in_map_iff. exists d. auto.
Qed.
Lemma release_similar : forall dups l, no_reference_objects l -> Forall (fun x => avoids (keys_of dups) (d_value x)) l ->
  forall k v, avoids (keys_of dups) v -> similar (objects l) (objects (release dups l)) k v v.
Proof.
  intros dups l Hn Ha. induction k as [|k IH]; intros v Hv; cbn [similar]; [exact I|].
  assert (Hhead : forall w, avoids (keys_of dups) w -> (forall n g, w <> VRef n g) -> alike (similar (objects l) (objects (release dups l)) k) w w).
  { intros w Hw Hnr. destruct Hw; try (constructor; fail).
    - apply al_num; try exact I. apply rst_refl.
    - apply al_num; try exact I. apply rst_refl.
    - exfalso. eapply Hnr. reflexivity.
    - constructor. apply Forall2_refl_in. eapply Forall_impl; [|eassumption]. exact IH.
    - constructor. apply Forall2_refl_in. eapply Forall_impl; [|eassumption]. cbn. auto.
    - constructor. apply Forall2_refl_in. eapply Forall_impl; [|eassumption]. cbn. auto. }
  destruct Hv as [| | | | | |n g Hng| | |]; cbn [target]; try (apply Hhead; [constructor; assumption|discriminate]).
  rewrite !find_objects. rewrite find_release by exact Hng. destruct (find_item l (n, g)) as [x|] eqn:E; [|constructor].
  apply find_item_some in E. destruct E as (Hin & _). rewrite Forall_forall in Ha. unfold no_reference_objects in Hn. rewrite Forall_forall in Hn.
  apply Hhead; [apply Ha; exact Hin|apply Hn; exact Hin].
Qed.

Lemma objects_keep : forall hash l, objects (map (keep_hash hash) l) = objects l.
Proof.
  intros hash l. unfold objects. rewrite map_map. apply map_ext. intros x. unfold keep_hash. destruct (d_comp x); reflexivity.
Qed.
Lemma keep_value : forall hash x, d_value (keep_hash hash x) = d_value x.
Proof. intros hash x. unfold keep_hash. destruct (d_comp x); reflexivity. Qed.
Lemma keep_id : forall hash x, d_id (keep_hash hash x) = d_id x.
Proof. intros hash x. unfold keep_hash. destruct (d_comp x); reflexivity. Qed.
Lemma keep_item_hash : forall hash x, hash_item hash (keep_hash hash x) = hash_item hash x.
Proof.
  assert (H : forall c h, (if (if c =? 0 then h else c) =? 0 then h else if c =? 0 then h else c) = if c =? 0 then h else c).
  { intros c h. destruct (N.eqb_spec c 0) as [E|E]; [destruct (N.eqb_spec h 0); congruence|]. destruct (N.eqb_spec c 0); congruence. }
  intros hash x. unfold keep_hash. destruct (d_comp x); [reflexivity|]. unfold hash_item. cbn [set_cache d_value d_cache].
  destruct (d_value x); try reflexivity; apply H.
Qed.
Lemma find_keep : forall hash l i, find_item (map (keep_hash hash) l) i = option_map (keep_hash hash) (find_item l i).
Proof.
  intros hash l i. induction l as [|x l IH]; [reflexivity|]. cbn [map find_item]. rewrite keep_id. destruct (same_id (d_id x) i); [reflexivity|exact IH].
Qed.

Lemma Forall2_In_l' : forall {A B} (R : A -> B -> Prop) l l' x, Forall2 R l l' -> In x l -> exists y, In y l' /\ R x y.
Proof. induction 1; intros [->|Hin] || intros []; [eexists; split; [left; reflexivity|assumption]|]. destruct (IHForall2 Hin) as (? & ? & ?). eexists; split; [right|]; eassumption. Qed.
Lemma Forall2_In_r' : forall {A B} (R : A -> B -> Prop) l l' y, Forall2 R l l' -> In y l' -> exists x, In x l /\ R x y.
Proof. induction 1; intros [->|Hin] || intros []; [eexists; split; [left; reflexivity|assumption]|]. destruct (IHForall2 Hin) as (? & ? & ?). eexists; split; [right|]; eassumption. Qed.
Lemma Forall2_and' : forall {A B} (R S : A -> B -> Prop) l l', Forall2 R l l' -> Forall2 S l l' -> Forall2 (fun x y => R x y /\ S x y) l l'.
Proof. intros A B R S l l' H. induction H; intros H'; inversion H'; subst; constructor; auto. Qed.

Lemma round_spec : forall hash l trailer l' trailer',
  ids_distinct l -> no_reference_objects l -> (forall x, In x l -> d_comp x = false -> duplicate l x -> steady hash x) ->
  round hash l trailer = Ok (Some (l', trailer')) ->
  merged l trailer l' trailer' /\
  (exists dups l1, dups <> [] /\ (forall k, In k (keys_of dups) -> In k (map d_id l)) /\ l' = release dups l1 /\ Forall2 follows (map (keep_hash hash) l) l1) /\
  no_reference_objects l'.
Proof.
  intros hash l trailer l' trailer' Hd Hn Hsteady E. unfold round in E. apply rbind_ok in E. destruct E as (dups & Escan & E).
  assert (Hdir := no_reference_direct _ Hn).
  destruct (scan_spec hash l l [] [] dups) as (uniq & Hg & Huk & Hul); auto; try (cbn; tauto); [constructor|].
  unfold good_dups in Hg. rewrite Forall_forall in Hg.
  assert (E' : (do l2 <- redirect_items hash dups [] (map (keep_hash hash) l);; do trailer2 <- redirect_value hash l2 dups trailer;; Ok (Some (release dups l2, trailer2))) = Ok (Some (l', trailer')) /\ dups <> []).
  { destruct dups; [discriminate|]. split; [exact E|discriminate]. }
  clear E. destruct E' as (E & Hne). apply rbind_ok in E. destruct E as (l1 & E1 & E). apply rbind_ok in E. destruct E as (tr & E2 & E).
  injection E as El Et. subst tr l'.
  set (l0 := map (keep_hash hash) l) in *.
  assert (Ho : objects l0 = objects l) by apply objects_keep.
  assert (Hn0 : no_reference_objects l0).
  { unfold l0, no_reference_objects. rewrite Forall_map. eapply Forall_impl; [|exact Hn]. cbn. intros x Hx. rewrite keep_value. exact Hx. }
  assert (Hkey : forall k h r, In ((k, h), r) dups -> exists x, In x l /\ d_id x = k /\ d_comp x = false /\ hash_item hash x = h /\ duplicate l x /\
    says_the_same (objects l) (objects l) (VRef (fst k) (snd k)) (VRef (fst r) (snd r))).
  { intros k h r Hin. specialize (Hg _ Hin). cbn in Hg. destruct Hg as ((x & Hx & Hid & Hc & Hh & Heq) & Hr).
    exists x. do 4 (split; [assumption|]).
    assert (Hf : find_item l k = Some x) by (rewrite <- Hid; apply find_item_in; assumption).
    split.
    - rewrite find_objects in Heq. rewrite <- surjective_pairing in Heq.
      assert (Hrl : In r (map d_id l)) by (apply Hul; exact Hr). apply in_map_iff in Hrl. destruct Hrl as (y & Hy & Hyl). exists y. split; [exact Hyl|]. split.
      + rewrite Hy, Hid. intros ->. apply (Huk _ Hr). apply in_map_iff. exists (k, h, k). auto.
      + rewrite <- Hy in Heq. rewrite find_item_in in Heq by assumption. exact Heq.
    - intros d. assert (Hs := equals_sound _ Hdir _ _ Heq d). eapply similar_target; [| |exact Hs]; symmetry.
      + rewrite find_twice by exact Hdir. rewrite find_objects, <- surjective_pairing, Hf. reflexivity.
      + apply find_twice. exact Hdir. }
  assert (Hreps : forall k h r, In ((k, h), r) dups -> ~ In r (keys_of dups)).
  { intros k h r Hin. specialize (Hg _ Hin). cbn in Hg. destruct Hg as (_ & Hr). apply Huk. exact Hr. }
  assert (Hhash0 : forall k h r, In ((k, h), r) dups -> exists x, find_item l0 k = Some x /\ hash_item hash x = h /\ frozen x).
  { intros k h r Hin. destruct (Hkey _ _ _ Hin) as (x & Hx & Hid & Hc & Hh & Hdup & _). exists (keep_hash hash x). split; [|split].
    - unfold l0. rewrite find_keep, <- Hid, find_item_in by assumption. reflexivity.
    - rewrite keep_item_hash. exact Hh.
    - unfold frozen. rewrite keep_value. destruct (Hsteady x Hx Hc Hdup) as [Hcl|Hst]; [left; exact Hcl|].
      unfold no_reference_objects in Hn. rewrite Forall_forall in Hn. specialize (Hn x Hx).
      assert (Hk : container (d_value x) -> hash_item hash x <> 0 -> container (d_value x) /\ d_cache (keep_hash hash x) <> 0).
      { intros H1 H2. split; [exact H1|]. unfold keep_hash. rewrite Hc. exact H2. }
      destruct (d_value x); try (left; constructor; fail); try contradiction.
      + exfalso. eapply Hn. reflexivity.
      + right. apply Hk; [exact I|exact Hst].
      + right. apply Hk; [exact I|exact Hst]. }
  assert (Hsame0 : forall k h r, In ((k, h), r) dups -> says_the_same (objects l0) (objects l0) (VRef (fst k) (snd k)) (VRef (fst r) (snd r))).
  { intros k h r Hin. rewrite Ho. destruct (Hkey _ _ _ Hin) as (x & _ & _ & _ & _ & _ & H). exact H. }
  assert (Hd0 : direct (objects l0)) by (rewrite Ho; exact Hdir).
  destruct (redirect_items_spec hash dups l0 Hd0 Hsame0 Hhash0 Hreps l0 [] l1) as (Hstage & Hav); auto.
  { cbn [app]. split; [|split; [exact Hn0|split]].
    - apply Forall2_refl_in. apply Forall_forall. intros x _. apply follows_refl.
    - intros n g k. apply similar_refl. exact Hd0.
    - apply Forall2_refl_in. apply Forall_forall. intros x _ k. apply similar_refl. exact Hd0. }
  assert (Hd1 : direct (objects l1)) by (apply no_reference_direct; apply Hstage).
  pose proof (redirect_moved _ _ _ Hd1 (stage_same _ _ Hsame0 _ Hstage) _ _ E2) as Hmt.
  pose proof (redirect_avoids _ _ _ Hd1 (stage_hash _ _ _ Hhash0 _ Hstage) Hreps _ _ E2) as Hat.
  pose proof Hstage as (S1 & S2 & S3 & S4).
  assert (Hback : forall x, In x l -> exists y, In y l1 /\ d_id y = d_id x /\ says_the_same (objects l) (objects l1) (d_value x) (d_value y)).
  { intros x Hx. destruct (Forall2_In_l' _ _ _ (keep_hash hash x) (Forall2_and' _ _ _ _ S1 S4)) as (y & Hy & (Hf & Hs)); [unfold l0; apply in_map; exact Hx|].
    exists y. split; [exact Hy|]. split; [destruct Hf as (Hf & _); rewrite keep_id in Hf; congruence|]. rewrite keep_value, Ho in Hs. exact Hs. }
  assert (Hids1 : map d_id l1 = map d_id l).
  { clear -S1. unfold l0 in S1. revert l1 S1. induction l as [|x l IH]; intros l1 S1; inversion S1 as [|? y ? l1' Hf Hl]; subst; [reflexivity|]. cbn [map]. f_equal; [|apply IH; exact Hl].
    destruct Hf as (Hf & _). rewrite keep_id in Hf. congruence. }
  rewrite Forall_forall in Hav.
  split; [split; [|split]|split].
  - intros k. eapply similar_trans; [|apply release_similar; [exact S2|apply Forall_forall; exact Hav|exact Hat]].
    rewrite Ho in *. 
    assert (Hid : similar (objects l1) (objects l1) k trailer trailer'). { apply moved_similar; [exact Hd1| |exact Hmt]. intros n g. apply moved_refl. exact Hd1. }
    eapply similar_trans; [|exact Hid]. clear -S3 Hdir Hd1 Hn.
    (* nothing changed in the trailer yet: its references say the same before and after *)
    revert k. assert (G : forall k v, similar (objects l) (objects l1) k v v); [|intros k; apply G].
    induction k as [|k IH]; intros v; cbn [similar]; [exact I|].
    destruct v; cbn [target]; try (apply alike_refl; [exact IH|discriminate]).
    apply (S3 num gen (S k)).
  - intros y Hy. apply in_release in Hy. destruct Hy as (Hy & Hk).
    destruct (Forall2_In_r' _ _ _ y (Forall2_and' _ _ _ _ S1 S4) Hy) as (x0 & Hx0 & (Hf & Hs)). unfold l0 in Hx0. apply in_map_iff in Hx0.
    destruct Hx0 as (x & <- & Hx). exists x. split; [exact Hx|]. split; [destruct Hf as (Hf & _); rewrite keep_id in Hf; exact Hf|].
    rewrite keep_value, Ho in Hs. intros k. eapply similar_trans; [apply Hs|]. apply release_similar; [exact S2|apply Forall_forall; exact Hav|apply Hav; exact Hy].
  - intros x Hx. destruct (in_dec (fun a b : ident => match Bool.bool_dec (same_id a b) true with left e => left (proj1 (same_id_eq a b) e) | right n => right (fun e => n (proj2 (same_id_eq a b) e)) end) (d_id x) (keys_of dups)) as [Hk|Hk].
    + unfold keys_of in Hk. apply in_map_iff in Hk. destruct Hk as ([[k h] r] & Ek & Hin). cbn [fst] in Ek. subst k.
      destruct (Hkey _ _ _ Hin) as (x' & Hx' & Hid & _ & _ & _ & Hsr).
      specialize (Hg _ Hin). cbn in Hg. destruct Hg as (_ & Hr). assert (Hrl := Hul _ Hr). apply in_map_iff in Hrl. destruct Hrl as (z & Ez & Hz).
      destruct (Hback z Hz) as (y & Hy & Eyz & Hsy). exists y.
      assert (Hyk : ~ In (d_id y) (keys_of dups)) by (rewrite Eyz, Ez; eapply Hreps; exact Hin).
      split; [apply in_release; auto|]. intros k. eapply similar_trans; [|apply release_similar; [exact S2|apply Forall_forall; exact Hav|apply Hav; exact Hy]].
      eapply similar_trans; [|apply Hsy]. eapply similar_target; [| |apply (Hsr k)].
      * rewrite find_twice by exact Hdir. rewrite find_objects, <- surjective_pairing, find_item_in by assumption. reflexivity.
      * rewrite find_twice by exact Hdir. rewrite find_objects, <- surjective_pairing, <- Ez, find_item_in by assumption. reflexivity.
    + destruct (Hback x Hx) as (y & Hy & Eyx & Hsy). exists y. split; [apply in_release; split; [exact Hy|rewrite Eyx; exact Hk]|].
      intros k. eapply similar_trans; [apply Hsy|]. apply release_similar; [exact S2|apply Forall_forall; exact Hav|apply Hav; exact Hy].
  - exists dups, l1. split; [exact Hne|]. split; [|split; [reflexivity|exact S1]].
    intros k Hk. unfold keys_of in Hk. apply in_map_iff in Hk. destruct Hk as ([[k' h] r] & Ek & Hin). cbn [fst] in Ek. subst k'.
    destruct (Hkey _ _ _ Hin) as (x & Hx & Hid & _). rewrite <- Hid. apply in_map. exact Hx.
  - unfold no_reference_objects in *. rewrite Forall_forall in *. intros y Hy. apply in_release in Hy. destruct Hy as (Hy & _). apply S2. exact Hy.
Qed.

(** *** All rounds *)
Lemma redirect_items_ids : forall hash dups rest before l', redirect_items hash dups before rest = Ok l' ->
  map d_id l' = map d_id (before ++ rest).
Proof.
  induction rest as [|x rest IH]; intros before l' E; cbn [redirect_items] in E.
  - injection E as <-. rewrite app_nil_r. reflexivity.
  - apply rbind_ok in E. destruct E as (v & E1 & E2). rewrite (IH _ _ E2). rewrite <- app_assoc. cbn [app]. rewrite !map_app. reflexivity.
Qed.
Lemma release_ids : forall dups l, ids_distinct l -> ids_distinct (release dups l).
Proof.
  unfold ids_distinct, release. induction l as [|x l IH]; intros H; [constructor|]. cbn [map] in H. inversion H as [|? ? Hn Hl]; subst.
  cbn [filter]. destruct (negb _); [|apply IH; exact Hl]. cbn [map]. constructor; [|apply IH; exact Hl].
  intros Hin. apply Hn. apply in_map_iff in Hin. destruct Hin as (y & E & Hy). apply filter_In in Hy. rewrite <- E. apply in_map. apply Hy.
Qed.
Lemma release_shorter : forall dups l k, In k (keys_of dups) -> In k (map d_id l) -> (length (release dups l) < length l)%nat.
Proof.
  intros dups l k Hk. induction l as [|x l IH]; intros Hin; [destruct Hin|]. cbn [map] in Hin. cbn [release filter].
  assert (Hle : (length (release dups l) <= length l)%nat).
  { unfold release. clear. induction l as [|y l IH]; [cbn; lia|]. cbn [filter]. destruct (negb _); cbn [length]; lia. }
  destruct Hin as [E|Hin].
  - subst k. assert (E : existsb (fun d => same_id (fst (fst d)) (d_id x)) dups = true).
    { apply existsb_exists. unfold keys_of in Hk. apply in_map_iff in Hk. destruct Hk as (d & E & Hd). exists d. split; [exact Hd|]. apply same_id_eq. exact E. }
    rewrite E. cbn [negb length]. unfold release in Hle. lia.
  - specialize (IH Hin). unfold release in *. destruct (negb _); cbn [length]; lia.
Qed.
Lemma round_shrinks : forall hash l trailer l' trailer', ids_distinct l -> round hash l trailer = Ok (Some (l', trailer')) ->
  ids_distinct l' /\ (length l' < length l)%nat.
Proof.
  intros hash l trailer l' trailer' Hd E. unfold round in E. apply rbind_ok in E. destruct E as (dups & Escan & E).
  destruct (scan_spec hash l l [] [] dups) as (uniq & Hg & _); auto; try (cbn; tauto); [constructor|].
  destruct dups as [|[[k h] r] dups]; [discriminate|]. unfold good_dups in Hg. inversion Hg as [|? ? H _]; subst. destruct H as ((x & Hx & Hid & _) & _).
  apply rbind_ok in E. destruct E as (l1 & E1 & E). apply rbind_ok in E. destruct E as (tr & E2 & E). injection E as El Et. subst l'.
  apply redirect_items_ids in E1. cbn [app] in E1.
  assert (E3 : map d_id l1 = map d_id l). { rewrite E1, map_map. apply map_ext. intros y. apply keep_id. }
  split.
  - apply release_ids. unfold ids_distinct in *. rewrite E3. exact Hd.
  - apply Nat.lt_le_trans with (length l1).
    + apply release_shorter with (k := k); [left; reflexivity|]. rewrite E3, <- Hid. apply in_map. exact Hx.
    + rewrite <- (map_length d_id l1), E3, map_length. lia.
Qed.

Lemma merged_refl : forall l trailer l', objects l' = objects l -> map d_id l' = map d_id l -> Forall2 (fun x y => d_id x = d_id y /\ d_value x = d_value y) l l' -> no_reference_objects l -> merged l trailer l' trailer.
Proof.
  intros l trailer l' Ho _ H Hn. unfold merged. rewrite Ho. assert (Hd := no_reference_direct _ Hn).
  split; [|split].
  - intros k. apply similar_refl. exact Hd.
  - intros y Hy. destruct (Forall2_In_r' _ _ _ y H Hy) as (x & Hx & (E1 & E2)). exists x. rewrite E2. repeat split; auto. intros k. apply similar_refl. exact Hd.
  - intros x Hx. destruct (Forall2_In_l' _ _ _ x H Hx) as (y & Hy & (E1 & E2)). exists y. rewrite E2. split; auto. intros k. apply similar_refl. exact Hd.
Qed.
Lemma merged_trans : forall l t l' t' l'' t'', merged l t l' t' -> merged l' t' l'' t'' -> merged l t l'' t''.
Proof.
  intros l t l' t' l'' t'' (A1 & A2 & A3) (B1 & B2 & B3). split; [|split].
  - intros k. eapply similar_trans; [apply A1|apply B1].
  - intros y Hy. destruct (B2 y Hy) as (z & Hz & E1 & S1). destruct (A2 z Hz) as (x & Hx & E2 & S2). exists x. split; [exact Hx|].
    split; [congruence|]. intros k. eapply similar_trans; [apply S2|apply S1].
  - intros x Hx. destruct (A3 x Hx) as (z & Hz & S1). destruct (B3 z Hz) as (y & Hy & S2). exists y. split; [exact Hy|].
    intros k. eapply similar_trans; [apply S1|apply S2].
Qed.

(** The shape of a value: everything but the targets of its references *)
Inductive shaped : value -> value -> Prop :=
| sh_leaf : forall v, match v with VRef _ _ | VArr _ | VDict _ | VStream _ _ => False | _ => True end -> shaped v v
| sh_ref : forall n g n' g', shaped (VRef n g) (VRef n' g')
| sh_arr : forall l l', Forall2 shaped l l' -> shaped (VArr l) (VArr l')
| sh_dict : forall l l', Forall2 (fun x y => fst x = fst y /\ shaped (snd x) (snd y)) l l' -> shaped (VDict l) (VDict l')
| sh_stream : forall l l' b, Forall2 (fun x y => fst x = fst y /\ shaped (snd x) (snd y)) l l' -> shaped (VStream l b) (VStream l' b).
Lemma shaped_refl : forall v, shaped v v.
Proof.
  induction v as [|x|q|q|n|h s|n g|l IH|l IH|l x IH] using value_ind'; try (apply sh_leaf; exact I).
  - apply sh_ref.
  - apply sh_arr. apply Forall2_refl_in. exact IH.
  - apply sh_dict. apply Forall2_refl_in. eapply Forall_impl; [|exact IH]. cbn. auto.
  - apply sh_stream. apply Forall2_refl_in. eapply Forall_impl; [|exact IH]. cbn. auto.
Qed.
Lemma shaped_trans : forall a b c, shaped a b -> shaped b c -> shaped a c.
Proof.
  assert (IE : forall l, Forall (fun a => forall b c, shaped a b -> shaped b c -> shaped a c) l -> forall l' l'', Forall2 shaped l l' -> Forall2 shaped l' l'' -> Forall2 shaped l l'').
  { induction 1 as [|x l Hx Hl IHl]; intros l' l'' H1 H2; inversion H1; subst; inversion H2; subst; constructor; eauto. }
  assert (EE : forall l, Forall (fun e : bytes * value => forall b c, shaped (snd e) b -> shaped b c -> shaped (snd e) c) l -> forall l' l'',
    Forall2 (fun x y => fst x = fst y /\ shaped (snd x) (snd y)) l l' -> Forall2 (fun x y => fst x = fst y /\ shaped (snd x) (snd y)) l' l'' ->
    Forall2 (fun x y => fst x = fst y /\ shaped (snd x) (snd y)) l l'').
  { induction 1 as [|x l Hx Hl IHl]; intros l' l'' H1 H2; inversion H1 as [|? ? ? ? (? & ?)]; subst; inversion H2 as [|? ? ? ? (? & ?)]; subst; constructor; [split; [congruence|]; eauto|eauto]. }
  induction a as [|x|q|q|n|h s|n g|l IH|l IH|l x IH] using value_ind'; intros b c H1 H2; inversion H1; subst; try assumption;
    try (match goal with H : match ?v with _ => _ end |- _ => destruct H end; fail); inversion H2; subst;
    try (match goal with H : False |- _ => destruct H end; fail); first [apply sh_ref|apply sh_arr|apply sh_dict|apply sh_stream]; eauto.
Qed.
Lemma redirect_shaped : forall hash l dups v v', redirect_value hash l dups v = Ok v' -> shaped v v'.
Proof.
  intros hash l dups. apply lift_value.
  - intros v. destruct v; try exact I; apply sh_leaf; exact I.
  - intros. apply sh_ref.
  - intros. apply sh_arr. assumption.
  - intros. apply sh_dict. assumption.
  - intros. apply sh_stream. assumption.
Qed.
Definition shaped_item (x y : ditem) : Prop := d_id x = d_id y /\ d_comp x = d_comp y /\ shaped (d_value x) (d_value y).
Lemma redirect_items_shaped : forall hash dups rest before l', redirect_items hash dups before rest = Ok l' -> Forall2 shaped_item (before ++ rest) l'.
Proof.
  intros hash dups. induction rest as [|x rest IH]; intros before l' E; cbn [redirect_items] in E.
  - injection E as <-. rewrite app_nil_r. apply Forall2_refl_in. apply Forall_forall. intros x _. split; [reflexivity|]. split; [reflexivity|apply shaped_refl].
  - apply rbind_ok in E. destruct E as (v & E1 & E2). apply IH in E2. rewrite <- app_assoc in E2. cbn [app] in E2.
    apply Forall2_app_inv_l in E2. destruct E2 as (a & b & Ha & Hb & ->). apply Forall2_app; [exact Ha|].
    inversion Hb as [|? y ? b' (H1 & H2 & H3) Hb']; subst. constructor; [|exact Hb']. split; [exact H1|]. split; [exact H2|].
    eapply shaped_trans; [eapply redirect_shaped; exact E1|exact H3].
Qed.
Lemma round_shaped : forall hash l trailer l' trailer', round hash l trailer = Ok (Some (l', trailer')) ->
  shaped trailer trailer' /\ forall y, In y l' -> exists x, In x l /\ shaped_item x y.
Proof.
  intros hash l trailer l' trailer' E. unfold round in E. apply rbind_ok in E. destruct E as (dups & _ & E). destruct dups as [|d dups]; [discriminate|].
  apply rbind_ok in E. destruct E as (l1 & E1 & E). apply rbind_ok in E. destruct E as (tr & E2 & E). injection E as <- <-.
  split; [eapply redirect_shaped; exact E2|]. intros y Hy. apply in_release in Hy. destruct Hy as (Hy & _).
  apply redirect_items_shaped in E1. cbn [app] in E1. destruct (Forall2_In_r' _ _ _ y E1 Hy) as (x0 & Hx0 & (H1 & H2 & H3)). apply in_map_iff in Hx0.
  destruct Hx0 as (x & <- & Hx). exists x. split; [exact Hx|]. split; [rewrite <- H1; symmetry; apply keep_id|]. rewrite keep_value in H3. split; [|exact H3].
  rewrite <- H2. unfold keep_hash. destruct (d_comp x) eqn:Ec; [congruence|]. cbn. congruence.
Qed.
Lemma rounds_shaped : forall hash fuel l trailer l' trailer', ids_distinct l -> rounds hash fuel l trailer = Ok (l', trailer') ->
  ids_distinct l' /\ shaped trailer trailer' /\ forall y, In y l' -> exists x, In x l /\ shaped_item x y.
Proof.
  intros hash. induction fuel as [|fuel IH]; intros l trailer l' trailer' Hd E; [discriminate|]. cbn [rounds] in E.
  apply rbind_ok in E. destruct E as (r & E1 & E2). destruct r as [[l2 t2]|].
  - destruct (round_shaped _ _ _ _ _ E1) as (A1 & A2). destruct (round_shrinks _ _ _ _ _ Hd E1) as (Hd2 & _).
    destruct (IH _ _ _ _ Hd2 E2) as (B0 & B1 & B2). split; [exact B0|]. split; [eapply shaped_trans; eassumption|].
    intros y Hy. destruct (B2 y Hy) as (x & Hx & (X1 & X2 & X3)). destruct (A2 x Hx) as (w & Hw & (W1 & W2 & W3)).
    exists w. split; [exact Hw|]. split; [congruence|]. split; [congruence|]. eapply shaped_trans; eassumption.
  - injection E2 as <- <-. split; [|split; [apply shaped_refl|]].
    + unfold ids_distinct. rewrite map_map. erewrite map_ext; [exact Hd|]. intros. apply keep_id.
    + intros y Hy. apply in_map_iff in Hy. destruct Hy as (x & <- & Hx). exists x. split; [exact Hx|]. split; [symmetry; apply keep_id|]. rewrite keep_value. split; [|apply shaped_refl].
      unfold keep_hash. destruct (d_comp x) eqn:Ec; [exact (eq_sym Ec)|exact (eq_sym Ec)].
Qed.

Lemma steady_kept : forall hash l l1 y, no_reference_objects l -> Forall2 follows (map (keep_hash hash) l) l1 -> In y l1 -> d_comp y = false ->
  (forall x, In x l -> d_id x = d_id y -> steady hash x) -> steady hash y.
Proof.
  intros hash l l1 y Hn Hf Hy Hc Hs.
  destruct (Forall2_In_r' _ _ _ y Hf Hy) as (x0 & Hx0 & (F1 & F2 & F3 & F4 & F5)). apply in_map_iff in Hx0. destruct Hx0 as (x & <- & Hx).
  rewrite keep_value in *. assert (Hcx : d_comp x = false). { unfold keep_hash in F2. destruct (d_comp x) eqn:E; [congruence|reflexivity]. }
  unfold keep_hash in F3. rewrite Hcx in F3. cbn [set_cache d_cache] in F3. rewrite keep_id in F1.
  unfold no_reference_objects in Hn. rewrite Forall_forall in Hn. specialize (Hn x Hx).
  destruct (Hs x Hx F1) as [H|H]; [left; rewrite (F4 H); exact H|].
  assert (Hcase : closed (d_value x) \/ (container (d_value x) /\ hash_item hash x <> 0)).
  { destruct (d_value x) eqn:E; try (left; constructor; fail); try contradiction.
    - exfalso. eapply Hn. reflexivity.
    - right. split; [exact I|exact H].
    - right. split; [exact I|exact H]. }
  destruct Hcase as [H1|(H1 & H2)]; [left; rewrite (F4 H1); exact H1|]. right. specialize (F5 H1).
  assert (Hh : hash_item hash y = hash_item hash x).
  { unfold hash_item at 1. rewrite <- F3. destruct (N.eqb_spec (hash_item hash x) 0); [contradiction|]. destruct (d_value y); try destruct F5; reflexivity. }
  rewrite Hh. destruct (d_value y); try destruct F5; exact H2.
Qed.
Lemma distinct_item : forall l x y, ids_distinct l -> In x l -> In y l -> d_id x = d_id y -> x = y.
Proof. intros l x y Hd Hx Hy E. apply (find_item_in _ _ Hd) in Hx. apply (find_item_in _ _ Hd) in Hy. rewrite E in Hx. congruence. Qed.

(** a stream whose data no other stream has is equal to no other object *)
Lemma own_data_no_duplicate : forall l x, no_reference_objects l -> own_data l x -> ~ duplicate l x.
Proof.
  intros l x Hn (e & b & E & H) (y & Hy & Hne & Heq). rewrite E in Heq.
  change (equals (objects l) (VStream e b) (d_value y)) with (do d <- deref (objects l) (d_value y);; match d with VStream l' x' =>
      do r <- (if negb (Nat.eqb (length e) (length l')) then Ok false else eq_entries (objects l) e l');;
      if r then Ok (buffer_equals b x') else Ok false | _ => Ok false end) in Heq.
  rewrite deref_target in Heq by (apply no_reference_direct; exact Hn). cbn [rbind] in Heq.
  assert (Ht : target (objects l) (d_value y) = d_value y).
  { unfold no_reference_objects in Hn. rewrite Forall_forall in Hn. specialize (Hn y Hy). destruct (d_value y); try reflexivity. exfalso. eapply Hn. reflexivity. }
  rewrite Ht in Heq. destruct (d_value y) as [| | | | | | | | |e' b'] eqn:Ey; try discriminate.
  apply rbind_ok in Heq. destruct Heq as ([] & _ & Heq); [|discriminate]. injection Heq as Heq. apply buffer_equals_spec in Heq. subst b'.
  apply Hne. eapply H; eassumption.
Qed.

Lemma rounds_spec : forall hash fuel l trailer l' trailer',
  ids_distinct l -> no_reference_objects l -> (forall x, In x l -> d_comp x = false -> steady hash x \/ own_data l x) ->
  rounds hash fuel l trailer = Ok (l', trailer') -> merged l trailer l' trailer'.
Proof.
  intros hash. induction fuel as [|fuel IH]; intros l trailer l' trailer' Hd Hn Hs E; [discriminate|]. cbn [rounds] in E.
  apply rbind_ok in E. destruct E as (r & E1 & E2). destruct r as [[l2 t2]|].
  - destruct (round_spec hash l trailer l2 t2 Hd Hn) as (Hm & (dups & l1 & _ & _ & El & Hf) & Hn2).
    { intros x Hx Hc Hdup. destruct (Hs x Hx Hc) as [H|H]; [exact H|]. exfalso. exact (own_data_no_duplicate _ _ Hn H Hdup). }
    { exact E1. }
    eapply merged_trans; [exact Hm|]. apply IH; [eapply round_shrinks; eassumption|exact Hn2| |exact E2].
    intros y Hy Hc. destruct (round_shaped _ _ _ _ _ E1) as (_ & Hsh). destruct (Hsh y Hy) as (x & Hx & (X1 & X2 & X3)).
    destruct (Hs x Hx) as [H|(e & b & Eb & H)]; [congruence| |].
    + left. subst l2. assert (Hy1 : In y l1) by (apply in_release in Hy; apply Hy). apply (steady_kept hash l l1 y Hn Hf Hy1 Hc).
      intros x' Hx' Ex'. assert (x' = x) by (apply (distinct_item l); [assumption..|congruence]). subst x'. exact H.
    + right. rewrite Eb in X3. inversion X3 as [? F| | | |? e1 ? _ E3 E4]; subst; [destruct F|]. exists e1, b. split; [symmetry; assumption|].
      intros z e2 Hz Ez. destruct (Hsh z Hz) as (w & Hw & (W1 & W2 & W3)). rewrite Ez in W3.
      assert (exists e3, d_value w = VStream e3 b) as (e3 & Ew). { inversion W3 as [? F Ew| | | |e3 ? ? _ E3' E4']; subst; [exists e2; congruence|exists e3; congruence]. }
      rewrite <- W1, <- X1. eapply H; [exact Hw|exact Ew].
  - injection E2 as <- <-. apply merged_refl; [apply objects_keep| | |exact Hn].
    + rewrite map_map. apply map_ext. intros. apply keep_id.
    + clear. induction l as [|x l IH]; cbn [map]; constructor; [rewrite keep_id, keep_value; auto|exact IH].
Qed.

(** *** The rounds end *)
Lemma safe_convert_nofuel : forall t s z, safe_convert t s z <> NoFuel.
Proof. intros t s z. unfold safe_convert. destruct (is_in_range t s z); discriminate. Qed.
Lemma integer_value_nofuel : forall q, integer_value q <> NoFuel.
Proof.
  intros [z|z|r]; cbn [integer_value]; [discriminate|apply safe_convert_nofuel|]. unfold dbl_to_big_int. destruct (_ && _); [|discriminate].
  cbv zeta. destruct (_ =? _)%Z; discriminate.
Qed.
Lemma real_value_nofuel : forall q, real_value q <> NoFuel.
Proof.
  intros [z|z|r]; cbn [real_value]; try discriminate. apply rbind_nofuel; [apply safe_convert_nofuel|discriminate].
Qed.
Lemma deref_nofuel : forall f v, deref f v <> NoFuel.
Proof. intros f v. destruct (deref_spec f v) as [(w & E & _)|(E & _)]; rewrite E; discriminate. Qed.
Lemma equals_nofuel : forall f a b, equals f a b <> NoFuel.
Proof.
  intros f. induction a as [|x|q|q|n|h s|n g|l IH|l IH|l x IH] using value_ind'; intros b.
  - cbn [equals]. apply rbind_nofuel; [apply deref_nofuel|]. intros d _. destruct d; discriminate.
  - cbn [equals]. apply rbind_nofuel; [apply deref_nofuel|]. intros d _. destruct d; discriminate.
  - cbn [equals]. apply rbind_nofuel; [apply rbind_nofuel; [apply deref_nofuel|intros d _; destruct d; discriminate]|].
    intros [q'|] _; [|discriminate]. apply rbind_nofuel; [apply integer_value_nofuel|]. intros y _. apply rbind_nofuel; [apply integer_value_nofuel|discriminate].
  - cbn [equals]. apply rbind_nofuel; [apply rbind_nofuel; [apply deref_nofuel|intros d _; destruct d; discriminate]|].
    intros [q'|] _; [|discriminate]. apply rbind_nofuel; [apply real_value_nofuel|]. intros y _. apply rbind_nofuel; [apply real_value_nofuel|discriminate].
  - cbn [equals]. apply rbind_nofuel; [apply deref_nofuel|]. intros d _. destruct d; discriminate.
  - cbn [equals]. apply rbind_nofuel; [apply deref_nofuel|]. intros d _. destruct d; discriminate.
  - cbn [equals]. destruct b; discriminate.
  - change (equals f (VArr l) b) with (do d <- deref f b;; match d with VArr l' =>
      if negb (Nat.eqb (length l) (length l')) then Ok false else eq_items f l l' | _ => Ok false end).
    apply rbind_nofuel; [apply deref_nofuel|]. intros d _. destruct d as [| | | | | | |l'| |]; try discriminate. destruct (negb _); [discriminate|].
    revert l'. induction IH as [|y l Hy Hl IHl]; intros [|z l']; cbn [eq_items]; try discriminate.
    apply rbind_nofuel; [apply Hy|]. intros [] _; [apply IHl|discriminate].
  - change (equals f (VDict l) b) with (do d <- deref f b;; match d with VDict l' =>
      if negb (Nat.eqb (length l) (length l')) then Ok false else eq_entries f l l' | _ => Ok false end).
    apply rbind_nofuel; [apply deref_nofuel|]. intros d _. destruct d as [| | | | | | | |l'|]; try discriminate. destruct (negb _); [discriminate|].
    revert l'. induction IH as [|[k y] l Hy Hl IHl]; intros [|[k' z] l']; cbn [eq_entries]; try discriminate.
    destruct (buffer_equals k k'); [|discriminate]. apply rbind_nofuel; [apply Hy|]. intros [] _; [apply IHl|discriminate].
  - change (equals f (VStream l x) b) with (do d <- deref f b;; match d with VStream l' x' =>
      do r <- (if negb (Nat.eqb (length l) (length l')) then Ok false else eq_entries f l l');;
      if r then Ok (buffer_equals x x') else Ok false | _ => Ok false end).
    apply rbind_nofuel; [apply deref_nofuel|]. intros d _. destruct d as [| | | | | | | | |l' x']; try discriminate.
    apply rbind_nofuel; [|intros [] _; discriminate]. destruct (negb _); [discriminate|].
    revert l'. induction IH as [|[k y] l Hy Hl IHl]; intros [|[k' z] l']; cbn [eq_entries]; try discriminate.
    destruct (buffer_equals k k'); [|discriminate]. apply rbind_nofuel; [apply Hy|]. intros [] _; [apply IHl|discriminate].
Qed.
Lemma lookup_nofuel : forall l h v set, lookup l h v set <> NoFuel.
Proof.
  induction set as [|[i h'] set IH]; cbn [lookup]; [discriminate|]. destruct (h =? h'); [|exact IH].
  apply rbind_nofuel; [apply equals_nofuel|]. intros [] _; [discriminate|exact IH].
Qed.
Lemma scan_nofuel : forall hash l items uniq dups, scan hash l items uniq dups <> NoFuel.
Proof.
  intros hash l. induction items as [|x items IH]; intros uniq dups; cbn [scan]; [discriminate|]. destruct (d_comp x); [apply IH|].
  cbv zeta. apply rbind_nofuel; [apply lookup_nofuel|]. intros [rep|] _; [|apply IH]. apply rbind_nofuel; [apply lookup_nofuel|]. intros [k|] _; apply IH.
Qed.
Lemma redirect_nofuel : forall hash l dups v, redirect_value hash l dups v <> NoFuel.
Proof.
  intros hash l dups. induction v as [|x|q|q|n|h s|n g|e IH|e IH|e x IH] using value_ind'; try discriminate.
  - rewrite red_ref. apply rbind_nofuel; [|discriminate]. unfold redirect_ref. apply rbind_nofuel; [apply lookup_nofuel|]. intros [k|] _; discriminate.
  - rewrite red_arr. apply rbind_nofuel; [|discriminate]. induction IH as [|x e Hx He IHe]; cbn [red_items]; [discriminate|].
    apply rbind_nofuel; [exact Hx|]. intros ? _. apply rbind_nofuel; [exact IHe|discriminate].
  - rewrite red_dict. apply rbind_nofuel; [|discriminate]. induction IH as [|[k x] e Hx He IHe]; cbn [red_entries]; [discriminate|].
    apply rbind_nofuel; [exact Hx|]. intros ? _. apply rbind_nofuel; [exact IHe|discriminate].
  - rewrite red_stream. apply rbind_nofuel; [|discriminate]. induction IH as [|[k y] e Hx He IHe]; cbn [red_entries]; [discriminate|].
    apply rbind_nofuel; [exact Hx|]. intros ? _. apply rbind_nofuel; [exact IHe|discriminate].
Qed.
Lemma round_nofuel : forall hash l trailer, round hash l trailer <> NoFuel.
Proof.
  intros hash l trailer. unfold round. apply rbind_nofuel; [apply scan_nofuel|]. intros dups _. destruct dups as [|d dups]; [discriminate|].
  apply rbind_nofuel.
  - generalize (@nil ditem) as before. generalize (map (keep_hash hash) l) as rest. induction rest as [|x rest IH]; intros before; cbn [redirect_items]; [discriminate|].
    apply rbind_nofuel; [apply redirect_nofuel|]. intros v _. apply IH.
  - intros l' _. apply rbind_nofuel; [apply redirect_nofuel|discriminate].
Qed.
Lemma rounds_nofuel : forall hash fuel l trailer, ids_distinct l -> (length l < fuel)%nat -> rounds hash fuel l trailer <> NoFuel.
Proof.
  intros hash. induction fuel as [|fuel IH]; intros l trailer Hd Hlen; [lia|]. cbn [rounds]. apply rbind_nofuel; [apply round_nofuel|].
  intros [[l' t']|] E; [|discriminate]. destruct (round_shrinks _ _ _ _ _ Hd E) as (Hd' & Hlt). apply IH; [exact Hd'|lia].
Qed.

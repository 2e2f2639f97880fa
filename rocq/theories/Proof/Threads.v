(** Lemmas about threads that read the objects of one file. *)
From Coq Require Import List NArith ZArith Bool PeanoNat Arith Lia.
From Verif.Model Require Import Base Threads.
From Verif.Spec Require Import Threads.
From Verif.Proof Require Import Tac.
Import ListNotations.

Section P.
Context {V : Type}.
Variable entry : N -> option where_is.
Variable parse : N -> Z -> V * Z.
Variable unpack : N -> Z -> list (N * V).
Variable rank : N -> nat.

Notation members k := (unpack k (data_of entry k)).
Notation own n := (exists d l, entry n = Some (Own d l)).
Notation frame := (@frame V).
Notation shared := (@shared V).
Notation state := (@state V).

Definition fcond (s : shared) (f : frame) : Prop :=
  match f with
  | FOwn n a =>
      own n /\
      match a with
      | OLock | OAgain => True
      | OInput | OSeek | OLength _ | ORead _ => slot s n = None
      | OStore _ v => slot s n = None /\ in_file entry parse unpack n = Some v
      | OFlag _ => slot s n <> None
      | ORewind _ | ORelease => flag s n = true
      end
  | FIn k a =>
      is_object_stream entry k /\
      match a with
      | CLock | CStream | CCheck => True
      | CInput | CSeek | CUnpack => opened s k = false /\ forall m v, In (m, v) (members k) -> slot s m = None
      | CMembers l =>
          opened s k = false /\
          exists pre, members k = pre ++ l /\ (forall m v, In (m, v) pre -> flag s m = true) /\ forall m v, In (m, v) l -> slot s m = None
      | CStore m v l =>
          opened s k = false /\
          exists pre, members k = pre ++ (m, v) :: l /\ (forall m v, In (m, v) pre -> flag s m = true)
            /\ forall m' v', In (m', v') ((m, v) :: l) -> slot s m' = None
      | CFlag m l =>
          opened s k = false /\
          exists pre v, members k = pre ++ (m, v) :: l /\ (forall m v, In (m, v) pre -> flag s m = true)
            /\ slot s m <> None /\ forall m' v', In (m', v') l -> slot s m' = None
      | CRelease => opened s k = true
      end
  end.

Definition calls (g f : frame) : Prop :=
  match g, f with
  | FOwn n (ORead _), FOwn k _ => len_of entry n = Some k
  | FIn s CCheck, FOwn k _ => k = s
  | _, _ => False
  end.
Fixpoint shape (fs : list frame) : Prop :=
  match fs with
  | [] => True
  | f :: r => match r with [] => True | g :: _ => calls g f end /\ shape r
  end.
Fixpoint bottom (fs : list frame) (n : N) : Prop :=
  match fs with
  | [] => False
  | f :: r =>
      match r with
      | [] => match f with FOwn k _ => k = n | FIn k _ => entry n = Some (Inside k) end
      | _ :: _ => bottom r n
      end
  end.
Fixpoint posok (fs : list frame) (p : Z) : Prop :=
  match fs with
  | [] => True
  | f :: r =>
      match f with
      | FOwn n (OLength q) | FOwn n (ORead q) => p = data_of entry n /\ posok r q
      | FOwn _ (OStore q _) | FOwn _ (OFlag q) | FOwn _ (ORewind q) => posok r q
      | FOwn _ _ => posok r p
      | FIn k CUnpack => p = data_of entry k
      | FIn _ _ => True
      end
  end.
Definition busy (k : N) (f : frame) : bool :=
  match f with
  | FIn k' (CMembers _ | CStore _ _ _ | CFlag _ _) => N.eqb k' k
  | _ => false
  end.
Definition setting (n : N) (f : frame) : bool :=
  match f with
  | FOwn m (OFlag _) => N.eqb m n
  | FIn _ (CFlag m _) => N.eqb m n
  | _ => false
  end.

Record inv (st : state) : Prop := {
  i_slot : forall n o, slot (sh st) n = Some o -> in_file entry parse unpack n = Some (snd o) /\ fst o < next (sh st);
  i_ids : forall n m o o', slot (sh st) n = Some o -> slot (sh st) m = Some o' -> fst o = fst o' -> n = m;
  i_flag : forall n, flag (sh st) n = true -> slot (sh st) n <> None;
  i_half : forall n, slot (sh st) n <> None -> flag (sh st) n = false -> exists t f, In f (frames (threads st t)) /\ setting n f = true;
  i_open : forall k, opened (sh st) k = true -> is_object_stream entry k -> forall m v, In (m, v) (members k) -> flag (sh st) m = true;
  i_closed : forall k, opened (sh st) k = false -> is_object_stream entry k ->
    (forall m v, In (m, v) (members k) -> slot (sh st) m = None)
    \/ exists t f, In f (frames (threads st t)) /\ busy k f = true;
  i_mutex : forall t u l, t <> u -> held (threads st t) l = true -> held (threads st u) l = false;
  i_shape : forall t, shape (frames (threads st t));
  i_cond : forall t f, In f (frames (threads st t)) -> fcond (sh st) f;
  i_pos : forall t, posok (frames (threads st t)) (pos (sh st));
  i_bottom : forall t, frames (threads st t) <> [] -> exists n, asking (threads st t) = Some n /\ bottom (frames (threads st t)) n;
  i_pending : forall t n, frames (threads st t) = [] -> asking (threads st t) = Some n ->
    flag (sh st) n = true \/ in_file entry parse unpack n = None;
  i_got : forall t n r, In (n, r) (got (threads st t)) ->
    r = slot (sh st) n /\ (r = None -> in_file entry parse unpack n = None)
}.

Hypothesis Hs : sound_file entry unpack rank.

(** ** facts about the file *)
Lemma stream_own : forall k, is_object_stream entry k ->
  own k /\ NoDup (map fst (members k)) /\ forall m v, In (m, v) (members k) -> entry m = Some (Inside k).
Proof.
  intros k [n Hn]. destruct (sound_stream _ _ _ Hs _ _ Hn) as (d & l & He & Hnd & Hm).
  unfold data_of. rewrite He. eauto.
Qed.

Lemma value_own : forall n, own n -> in_file entry parse unpack n = Some (fst (parse n (data_of entry n))).
Proof. intros n (d & l & He). unfold in_file, data_of. rewrite He. reflexivity. Qed.

Lemma nodup_find : forall (l : list (N * V)) m v, NoDup (map fst l) -> In (m, v) l -> find (fun p => N.eqb (fst p) m) l = Some (m, v).
Proof.
  induction l as [|[a b] l IH]; intros m v Hnd Hin; [destruct Hin|].
  cbn [map fst] in Hnd. inversion Hnd; subst. cbn [find fst]. destruct Hin as [E|Hin].
  - injection E; intros; subst. rewrite N.eqb_refl. reflexivity.
  - destruct (N.eqb_spec a m); [|auto]. subst. exfalso. apply H1. apply (in_map fst) in Hin. exact Hin.
Qed.

Lemma value_member : forall k m v, is_object_stream entry k -> In (m, v) (members k) -> in_file entry parse unpack m = Some v.
Proof.
  intros k m v Hk Hin. destruct (stream_own k Hk) as ((d & l & He) & Hnd & Hm).
  unfold in_file. rewrite (Hm _ _ Hin), He. unfold data_of in *. rewrite He in *.
  rewrite (nodup_find _ _ _ Hnd Hin). reflexivity.
Qed.

Lemma value_not_member : forall k n, entry n = Some (Inside k) -> in_file entry parse unpack n = None \/ exists v, In (n, v) (members k).
Proof.
  intros k n He. destruct (stream_own k) as ((d & l & Hek) & _ & _); [exists n; exact He|].
  unfold in_file. rewrite He, Hek. unfold data_of. rewrite Hek.
  destruct (find _ _) as [[a b]|] eqn:Hf; [|left; reflexivity].
  right. apply find_some in Hf. destruct Hf as [Hin Heq]. cbn [fst] in Heq. apply N.eqb_eq in Heq. subst a. eauto.
Qed.

Lemma length_own : forall n k, len_of entry n = Some k -> own k /\ rank k < rank n.
Proof.
  intros n k H. unfold len_of in H. destruct (entry n) as [[d l|]|] eqn:He; try discriminate. subst l.
  apply (sound_length _ _ _ Hs _ _ _ He).
Qed.

(** ** facts about stacks *)
Lemma shape_own : forall r n a, shape (FOwn n a :: r) ->
  forall g, In g r -> match g with FOwn m b => rank n < rank m /\ exists p, b = ORead p | FIn _ c => c = CCheck end.
Proof.
  induction r as [|g r IH]; intros n a Hsh h Hin; [destruct Hin|].
  destruct Hsh as [Hc Hr]. destruct g as [m b|k c].
  - cbn [calls] in Hc. destruct b; try contradiction. pose proof (length_own _ _ Hc) as [_ Hrk].
    destruct Hin as [<-|Hin]; [split; [exact Hrk|eauto]|].
    specialize (IH _ _ Hr _ Hin). destruct h as [m' b'|]; [|exact IH]. destruct IH; split; [lia|assumption].
  - cbn [calls] in Hc. destruct c; try contradiction. destruct Hin as [<-|Hin]; [reflexivity|].
    destruct r as [|g' r]; [destruct Hin|]. destruct Hr as [Hr _]. destruct g' as [? []|? []]; cbn [calls] in Hr; contradiction.
Qed.

Lemma shape_in : forall r k a, shape (FIn k a :: r) -> r = [].
Proof. intros [|g r] k a [H _]; [reflexivity|]. destruct g as [? []|? []]; contradiction. Qed.

Lemma posok_free : forall fs p q, existsb (fun f => holds f LInput) fs = false -> posok fs p -> posok fs q.
Proof.
  induction fs as [|f r IH]; intros p q Hf Hp; [exact I|].
  cbn [existsb] in Hf. apply orb_false_iff in Hf. destruct Hf as [Hf Hr].
  destruct f as [n []|k []]; cbn [holds] in Hf; try discriminate; cbn [posok] in *; eauto.
Qed.

Lemma call_own : forall s n, own n -> call (V := V) entry s n = if flag s n then [] else [FOwn n OLock].
Proof. intros s n (d & l & He). unfold call. rewrite He. reflexivity. Qed.

Lemma advance_mutex : forall s f g l, fcond s f -> In g (fst (advance entry parse unpack s f)) -> holds g l = true -> holds f l = true \/ needs f = Some l.
Proof.
  intros s f g l Hc Hin Hl. destruct f as [n a|k a]; destruct a; cbn [advance fst] in Hin.
  all: repeat match type of Hin with
    | context [if ?b then _ else _] => destruct b
    | context [match ?b with _ => _ end] => destruct b eqn:?
    end.
  all: try (rewrite in_app_iff in Hin; destruct Hin as [Hin|Hin]).
  all: try (unfold call in Hin; repeat match type of Hin with
    | context [if ?b then _ else _] => destruct b
    | context [match ?b with _ => _ end] => destruct b eqn:?
    end).
  all: cbn [In app fst] in Hin; repeat (destruct Hin as [Hin|Hin]); try contradiction; subst g.
  all: destruct l; cbn [holds needs] in *; try discriminate; auto.
  all: right; f_equal; f_equal; apply N.eqb_eq in Hl; auto.
Qed.

(** ** what a step of one call does to another *)
Definition apart (f g : frame) : Prop :=
  match f, g with
  | FOwn n a, FOwn m b => n <> m \/ a = OLock \/ b = OLock
  | FIn _ a, FIn _ b => a = CLock \/ b = CLock
  | _, _ => True
  end.
Notation adv s f := (snd (advance entry parse unpack s f)).

Lemma own_not_member : forall n k m v, own n -> is_object_stream entry k -> In (m, v) (members k) -> n <> m.
Proof.
  intros n k m v (d & l & He) Hk Hin ->. destruct (stream_own k Hk) as (_ & _ & Hm).
  rewrite (Hm _ _ Hin) in He. discriminate.
Qed.

(** the parts of the shared state that a step can change *)
Lemma adv_slot : forall s f m, slot (adv s f) m = slot s m
  \/ (exists p v, f = FOwn m (OStore p v)) \/ (exists k v l, f = FIn k (CStore m v l)).
Proof.
  intros s f m. destruct f as [n a|k a]; destruct a; cbn [advance snd with_slot with_flag with_opened at_pos slot]; auto.
  - destruct (N.eqb_spec m n); [subst; right; left; eauto|auto].
  - destruct l as [|[]]; cbn; auto.
  - destruct (N.eqb_spec m m0); [subst; right; right; eauto|auto].
Qed.
Lemma adv_flag : forall s f m, flag (adv s f) m = flag s m
  \/ (flag (adv s f) m = true /\ ((exists p, f = FOwn m (OFlag p)) \/ (exists k l, f = FIn k (CFlag m l)))).
Proof.
  intros s f m. destruct f as [n a|k a]; destruct a; cbn [advance snd with_slot with_flag with_opened at_pos flag]; auto.
  - destruct (N.eqb_spec m n); [subst; right; eauto|auto].
  - destruct l as [|[]]; cbn; auto.
  - destruct (N.eqb_spec m m0); [subst; right; eauto|auto].
Qed.
Lemma adv_opened : forall s f k, opened (adv s f) k = opened s k \/ (opened (adv s f) k = true /\ f = FIn k (CMembers [])).
Proof.
  intros s f k. destruct f as [n a|k' a]; destruct a; cbn [advance snd with_slot with_flag with_opened at_pos opened]; auto.
  destruct l as [|[]]; cbn [snd with_opened opened]; auto. destruct (N.eqb_spec k k'); [subst; auto|auto].
Qed.
Lemma adv_flag_mono : forall s f m, flag s m = true -> flag (adv s f) m = true.
Proof. intros s f m H. destruct (adv_flag s f m) as [E|[E _]]; congruence. Qed.
Lemma adv_slot_mono : forall s f m, slot s m <> None -> slot (adv s f) m <> None.
Proof.
  intros s f m H. destruct (adv_slot s f m) as [E|[(p & v & ->)|(k & v & l & ->)]]; [congruence| |];
    cbn [advance snd with_slot slot]; rewrite N.eqb_refl; discriminate.
Qed.
Lemma adv_pos : forall s f, pos (adv s f) = pos s \/ holds f LInput = true.
Proof. intros s f. destruct f as [n a|k a]; destruct a; cbn; auto. destruct l as [|[]]; cbn; auto. Qed.

Lemma fcond_member : forall s k m v l, fcond s (FIn k (CStore m v l)) -> In (m, v) (members k).
Proof. intros s k m v l (_ & _ & pre & E & _). rewrite E. apply in_elt. Qed.

Lemma keep : forall s f g, fcond s f -> fcond s g -> apart f g -> fcond (adv s f) g.
Proof.
  intros s f g Hf Hg Ha.
  assert (HU : forall n, own n -> (forall a, f = FOwn n a -> a = OLock) -> slot (adv s f) n = slot s n).
  { intros n Hn Hnf. destruct (adv_slot s f n) as [E|[(p & v & ->)|(k & v & l & ->)]]; [exact E| |].
    - discriminate (Hnf _ eq_refl).
    - exfalso. pose proof (fcond_member _ _ _ _ _ Hf) as Hin. destruct Hf as [Hk _]. exact (own_not_member _ _ _ _ Hn Hk Hin eq_refl). }
  assert (HM : forall k m v, is_object_stream entry k -> In (m, v) (members k) -> (forall k' a, f = FIn k' a -> a = CLock) -> slot (adv s f) m = slot s m).
  { intros k m v Hk Hin Hnf. destruct (adv_slot s f m) as [E|[(p & w & ->)|(k' & w & l & ->)]]; [exact E| |].
    - exfalso. destruct Hf as [Ho _]. exact (own_not_member _ _ _ _ Ho Hk Hin eq_refl).
    - discriminate (Hnf _ _ eq_refl). }
  assert (HO : forall k, (forall k' a, f = FIn k' a -> a = CLock) -> opened (adv s f) k = opened s k).
  { intros k Hnf. destruct (adv_opened s f k) as [E|[E ->]]; [exact E|]. discriminate (Hnf _ _ eq_refl). }
  destruct g as [m b|k b].
  - destruct Hg as [Hm Hg]. split; [exact Hm|].
    destruct b; auto; try (eapply adv_flag_mono; eassumption); try (apply adv_slot_mono; assumption).
    all: assert (HN : forall a, f = FOwn m a -> a = OLock) by
      (intros a ->; cbn [apart] in Ha; destruct Ha as [Ha|[Ha|Ha]]; [congruence|exact Ha|discriminate]).
    all: rewrite (HU _ Hm HN); exact Hg.
  - destruct Hg as [Hk Hg]. split; [exact Hk|].
    destruct b; auto.
    all: try (assert (HN : forall k' a, f = FIn k' a -> a = CLock) by
      (intros k' a ->; cbn [apart] in Ha; destruct Ha as [Ha|Ha]; [exact Ha|discriminate])).
    all: rewrite ?(HO k HN).
    1-3: destruct Hg as [H1 H2]; split; [exact H1|]; intros m v Hin; rewrite (HM _ _ _ Hk Hin HN); eauto.
    + destruct Hg as (H1 & pre & E & H2 & H3). split; [exact H1|]. exists pre. split; [exact E|]. split.
      * intros m v Hin. apply adv_flag_mono; eauto.
      * intros m v Hin. rewrite (HM k m v Hk); [eauto| |exact HN]. rewrite E. apply in_or_app; auto.
    + destruct Hg as (H1 & pre & E & H2 & H3). split; [exact H1|]. exists pre. split; [exact E|]. split.
      * intros m' v' Hin. apply adv_flag_mono; eauto.
      * intros m' v' Hin. rewrite (HM k m' v' Hk); [eauto| |exact HN]. rewrite E. apply in_or_app; auto.
    + destruct Hg as (H1 & pre & v & E & H2 & H3 & H4). split; [exact H1|]. exists pre, v. split; [exact E|]. split; [|split].
      * intros m' v' Hin. apply adv_flag_mono; eauto.
      * apply adv_slot_mono; assumption.
      * intros m' v' Hin. rewrite (HM k m' v' Hk); [eauto| |exact HN]. rewrite E. apply in_or_app; right; right; auto.
    + exact Hg.
Qed.

Notation new s f := (fst (advance entry parse unpack s f)).

Lemma adv_shape : forall s f r, fcond s f -> shape (f :: r) -> shape (new s f ++ r).
Proof.
  intros s f r Hf [Hc Hr].
  assert (HS : forall n a b, f = FOwn n a -> shape (FOwn n b :: r)).
  { intros n a b ->. cbn [shape]. split; [|exact Hr]. destruct r as [|[? []|? []] r]; auto. }
  assert (HI : forall n a b, f = FIn n a -> shape (FIn n b :: r)).
  { intros n a b ->. cbn [shape]. split; [|exact Hr]. destruct r as [|[? []|? []] r]; auto. }
  destruct f as [n a|k a]; destruct a; cbn [advance fst app]; eauto.
  - destruct (flag s n); cbn [app]; eauto.
  - destruct (len_of entry n) as [k|] eqn:El; cbn [app]; eauto.
    destruct (length_own _ _ El) as [Hk _]. rewrite (call_own _ _ Hk). destruct (flag s k); cbn [app]; eauto.
    cbn [shape calls]. split; [exact El|]. eapply (HS n _ (ORead p)); reflexivity.
  - destruct (stream_own k) as (Hk & _); [apply Hf|]. rewrite (call_own _ _ Hk). destruct (flag s k); cbn [app]; eauto.
    cbn [shape calls]. split; [reflexivity|]. eapply (HI k _ CCheck); reflexivity.
  - destruct l as [|[m v] l]; cbn [fst app]; eauto.
Qed.

Lemma adv_posok : forall s f r, fcond s f -> shape (f :: r) -> posok (f :: r) (pos s) -> posok (new s f ++ r) (pos (adv s f)).
Proof.
  intros s f r Hf Hsh Hp. destruct f as [n a|k a].
  - destruct a; cbn [advance fst snd app posok at_pos with_slot with_flag pos] in *; auto.
    + destruct (flag s n); cbn [app posok]; auto.
    + destruct (len_of entry n) as [k|] eqn:El; cbn [app posok]; auto.
      destruct (length_own _ _ El) as [Hk _]. rewrite (call_own _ _ Hk). destruct (flag s k); cbn [app posok]; auto.
    + tauto.
  - apply shape_in in Hsh. subst r. destruct a; cbn [advance fst snd app posok at_pos with_slot with_flag with_opened pos] in *; auto.
    + destruct (stream_own k) as (Hk & _); [apply Hf|]. rewrite (call_own _ _ Hk). destruct (flag s k); cbn [app posok]; auto.
    + destruct (opened s k); exact I.
    + destruct l as [|[m v] l]; cbn [fst app posok]; auto.
Qed.

Lemma adv_bottom : forall s f r n, fcond s f -> bottom (f :: r) n -> new s f ++ r <> [] -> bottom (new s f ++ r) n.
Proof.
  intros s f r n Hf Hb Hne.
  assert (HS : forall k a b, f = FOwn k a -> bottom (FOwn k b :: r) n) by (intros k a b ->; destruct r; exact Hb).
  assert (HI : forall k a b, f = FIn k a -> bottom (FIn k b :: r) n) by (intros k a b ->; destruct r; exact Hb).
  destruct f as [m a|k a]; destruct a; cbn [advance fst app] in *; eauto.
  - destruct (flag s m); cbn [app] in *; eauto. destruct r; [contradiction|exact Hb].
  - destruct (len_of entry m) as [k|] eqn:El; cbn [app] in *; eauto.
    destruct (length_own _ _ El) as [Hk _]. rewrite (call_own _ _ Hk). destruct (flag s k); cbn [app] in *; eauto.
  - destruct r; [contradiction|exact Hb].
  - destruct (stream_own k) as (Hk & _); [apply Hf|]. rewrite (call_own _ _ Hk). destruct (flag s k); cbn [app] in *; eauto.
  - destruct l as [|[x v] l]; cbn [fst app] in *; eauto.
  - destruct r; [contradiction|exact Hb].
Qed.

Lemma adv_cond : forall st t f r g, inv st -> frames (threads st t) = f :: r -> In g (new (sh st) f) -> fcond (adv (sh st) f) g.
Proof.
  intros st t f r g Hi Hfr Hin.
  assert (Hf : fcond (sh st) f) by (apply (i_cond _ Hi t); rewrite Hfr; left; reflexivity).
  assert (Hp : posok (f :: r) (pos (sh st))) by (rewrite <- Hfr; apply (i_pos _ Hi)).
  assert (Hsh : shape (f :: r)) by (rewrite <- Hfr; apply (i_shape _ Hi)).
  destruct f as [n a|k a].
  - destruct Hf as [Hn Hf]. destruct a; cbn [advance fst snd In] in *.
    + destruct Hin as [<-|[]]. cbn. auto.
    + destruct (flag (sh st) n) eqn:Efl; [destruct Hin|]. destruct Hin as [<-|[]]. cbn. split; [exact Hn|].
      destruct (slot (sh st) n) as [o|] eqn:Es; [|reflexivity].
      exfalso. destruct (i_half _ Hi n) as (u & g & Hg & Hb); [congruence|exact Efl|].
      pose proof (i_cond _ Hi _ _ Hg) as Hgc. destruct g as [m b|k b]; destruct b; try discriminate Hb; cbn [setting] in Hb; apply N.eqb_eq in Hb; subst.
      * destruct (Nat.eq_dec t u) as [->|Hne].
        -- rewrite Hfr in Hg. destruct Hg as [Hg|Hg]; [discriminate Hg|]. pose proof (shape_own _ _ _ Hsh _ Hg) as [Hlt _]. lia.
        -- assert (Hht : held (threads st t) (LEntry n) = true) by (unfold held; rewrite Hfr; cbn [existsb holds]; rewrite N.eqb_refl; reflexivity).
           pose proof (i_mutex _ Hi _ _ _ Hne Hht) as Hu. unfold held in Hu.
           assert (existsb (fun f => holds f (LEntry n)) (frames (threads st u)) = true); [|congruence].
           apply existsb_exists. eexists. split; [exact Hg|]. cbn [holds]. apply N.eqb_refl.
      * destruct Hgc as (Hk & _ & pre & v & E & _). apply (own_not_member n k n v Hn Hk); [|reflexivity]. rewrite E. apply in_elt.
    + destruct Hin as [<-|[]]. cbn. auto.
    + destruct Hin as [<-|[]]. cbn. auto.
    + apply in_app_or in Hin. destruct Hin as [Hin|[<-|[]]]; [|cbn; auto].
      destruct (len_of entry n) as [k|] eqn:El; [|destruct Hin]. destruct (length_own _ _ El) as [Hk _].
      rewrite (call_own _ _ Hk) in Hin. destruct (flag (sh st) k); [destruct Hin|]. destruct Hin as [<-|[]]. cbn. auto.
    + destruct Hin as [<-|[]]. cbn. split; [exact Hn|]. split; [exact Hf|]. cbn [posok] in Hp. destruct Hp as [-> _].
      apply value_own, Hn.
    + destruct Hin as [<-|[]]. cbn. split; [exact Hn|]. rewrite N.eqb_refl. discriminate.
    + destruct Hin as [<-|[]]. cbn. split; [exact Hn|]. rewrite N.eqb_refl. reflexivity.
    + destruct Hin as [<-|[]]. cbn. auto.
    + destruct Hin.
  - destruct Hf as [Hk Hf]. pose proof (stream_own k Hk) as (Ho & Hnd & Hm). pose proof (shape_in _ _ _ Hsh) as ->.
    destruct a; cbn [advance fst snd In] in *.
    + destruct Hin as [<-|[]]. cbn. auto.
    + apply in_app_or in Hin. destruct Hin as [Hin|[<-|[]]]; [|cbn; auto].
      rewrite (call_own _ _ Ho) in Hin. destruct (flag (sh st) k); [destruct Hin|]. destruct Hin as [<-|[]]. cbn. auto.
    + destruct Hin as [<-|[]]. destruct (opened (sh st) k) eqn:Eo; cbn; [auto|]. split; [exact Hk|]. split; [exact Eo|].
      destruct (i_closed _ Hi k Eo Hk) as [H|(u & g & Hg & Hb)]; [exact H|]. exfalso.
      assert (Hht : held (threads st t) LStreams = true) by (unfold held; rewrite Hfr; reflexivity).
      destruct (Nat.eq_dec t u) as [->|Hne].
      * rewrite Hfr in Hg. destruct Hg as [<-|[]]. discriminate Hb.
      * pose proof (i_mutex _ Hi _ _ _ Hne Hht) as Hu. unfold held in Hu.
        assert (existsb (fun f => holds f LStreams) (frames (threads st u)) = true); [|congruence].
        apply existsb_exists. exists g. split; [exact Hg|]. destruct g as [? []|? []]; try discriminate Hb; reflexivity.
    + destruct Hin as [<-|[]]. cbn. auto.
    + destruct Hin as [<-|[]]. cbn. auto.
    + destruct Hin as [<-|[]]. cbn [posok] in Hp. rewrite Hp. cbn. split; [exact Hk|]. destruct Hf as [Hf1 Hf2]. split; [exact Hf1|].
      exists []. cbn [app]. split; [reflexivity|]. split; [intros ? ? []|exact Hf2].
    + destruct l as [|[m v] l]; cbn [fst snd In] in *; destruct Hin as [<-|[]].
      * cbn. split; [exact Hk|]. rewrite N.eqb_refl. reflexivity.
      * cbn. auto.
    + destruct Hin as [<-|[]]. destruct Hf as (H1 & pre & E & H2 & H3). cbn. split; [exact Hk|]. split; [exact H1|].
      exists pre, v. split; [exact E|]. split; [exact H2|]. rewrite N.eqb_refl. split; [discriminate|].
      intros m' v' Hin. destruct (N.eqb_spec m' m) as [->|]; [|apply (H3 m' v'); right; exact Hin].
      exfalso. rewrite E, map_app in Hnd. apply NoDup_remove_2 in Hnd. apply Hnd. apply in_or_app. right.
      apply (in_map fst) in Hin. exact Hin.
    + destruct Hin as [<-|[]]. destruct Hf as (H1 & pre & v & E & H2 & H3 & H4). cbn. split; [exact Hk|]. split; [exact H1|].
      exists (pre ++ [(m, v)]). split; [rewrite <- app_assoc; exact E|]. split; [|exact H4].
      intros m' v' Hin. apply in_app_or in Hin. destruct (N.eqb_spec m' m) as [->|Hne]; [reflexivity|].
      destruct Hin as [Hin|[E'|[]]]; [eauto|]. injection E'; intros; subst. contradiction.
    + destruct Hin.
Qed.

(** ** the invariant *)
Lemma inv_start : forall p program, inv (start p program).
Proof.
  intros p program. constructor; cbn; try discriminate; try contradiction; auto; try congruence.
Qed.

Lemma put_same : forall (st : state) t s th, threads (put st t s th) t = th.
Proof. intros. cbn. rewrite Nat.eqb_refl. reflexivity. Qed.
Lemma put_other : forall (st : state) t s th u, u <> t -> threads (put st t s th) u = threads st u.
Proof. intros. cbn. destruct (Nat.eqb_spec u t); [contradiction|reflexivity]. Qed.

Lemma apart_other : forall st t u f g r, inv st -> t <> u -> frames (threads st t) = f :: r -> In g (frames (threads st u)) -> apart f g.
Proof.
  intros st t u f g r Hi Hne Hfr Hg.
  assert (HX : forall l, holds f l = true -> holds g l = true -> False).
  { intros l Hf Hgl. assert (Hht : held (threads st t) l = true) by (unfold held; rewrite Hfr; cbn [existsb]; rewrite Hf; reflexivity).
    pose proof (i_mutex _ Hi _ _ _ Hne Hht) as Hu. unfold held in Hu.
    assert (existsb (fun f => holds f l) (frames (threads st u)) = true); [|congruence].
    apply existsb_exists. eauto. }
  destruct f as [n a|k a]; destruct g as [m b|k' b]; cbn [apart]; auto.
  - destruct (N.eq_dec n m) as [->|]; [|auto]. right.
    destruct a; auto; destruct b; auto; exfalso; apply (HX (LEntry m)); cbn [holds]; apply N.eqb_refl.
  - destruct a; auto; destruct b; auto; exfalso; apply (HX LStreams); reflexivity.
Qed.

Lemma apart_own : forall f g r, shape (f :: r) -> In g r -> apart f g.
Proof.
  intros f g r Hsh Hg. destruct f as [n a|k a].
  - pose proof (shape_own _ _ _ Hsh _ Hg) as H. destruct g as [m b|]; cbn [apart]; auto. destruct H. left. intros ->. lia.
  - apply shape_in in Hsh. subst r. destruct Hg.
Qed.

Lemma inv_inside : forall st t f r, inv st -> frames (threads st t) = f :: r ->
  match needs f with Some l => free_for st t l | None => True end ->
  inv (put st t (adv (sh st) f)
        {| frames := new (sh st) f ++ r; asking := asking (threads st t); todo := todo (threads st t); got := got (threads st t) |}).
Proof.
  intros st t f r Hi Hfr Hneeds.
  assert (Hf : fcond (sh st) f) by (apply (i_cond _ Hi t); rewrite Hfr; left; reflexivity).
  assert (Hp : posok (f :: r) (pos (sh st))) by (rewrite <- Hfr; apply (i_pos _ Hi)).
  assert (Hsh : shape (f :: r)) by (rewrite <- Hfr; apply (i_shape _ Hi)).
  set (th := {| frames := new (sh st) f ++ r; asking := asking (threads st t); todo := todo (threads st t); got := got (threads st t) |}).
  assert (HC : forall u g, In g (frames (threads (put st t (adv (sh st) f) th) u)) -> fcond (adv (sh st) f) g).
  { intros u g Hg. destruct (Nat.eq_dec u t) as [->|Hne].
    - rewrite put_same in Hg. cbn [th frames] in Hg. apply in_app_or in Hg. destruct Hg as [Hg|Hg].
      + eapply adv_cond; eassumption.
      + apply keep; [exact Hf| |eapply apart_own; eassumption]. apply (i_cond _ Hi t). rewrite Hfr. right. exact Hg.
    - rewrite put_other in Hg by exact Hne. apply keep; [exact Hf|apply (i_cond _ Hi u); exact Hg|].
      eapply apart_other; [exact Hi| |exact Hfr|exact Hg]. congruence. }
  assert (HSl : forall n o, slot (adv (sh st) f) n = Some o ->
            slot (sh st) n = Some o \/ (slot (sh st) n = None /\ fst o = next (sh st) /\ in_file entry parse unpack n = Some (snd o)
                                         /\ next (adv (sh st) f) = S (next (sh st))
                                         /\ forall m, m <> n -> slot (adv (sh st) f) m = slot (sh st) m)).
  { intros n o Ho. destruct (adv_slot (sh st) f n) as [E|[(p & v & E)|(k & v & l & E)]]; [left; congruence| |]; subst f; right;
      cbn [advance snd with_slot slot next] in *; rewrite N.eqb_refl in Ho; injection Ho as <-; cbn [fst snd].
    - destruct Hf as (_ & H1 & H2). repeat split; auto. intros m Hm. destruct (N.eqb_spec m n); [contradiction|reflexivity].
    - pose proof (fcond_member _ _ _ _ _ Hf) as Hmem. destruct Hf as (Hk & _ & pre & E & _ & H3).
      split; [apply (H3 n v); left; reflexivity|]. split; [reflexivity|]. split; [eapply value_member; eassumption|]. split; [reflexivity|].
      intros m Hm. destruct (N.eqb_spec m n); [contradiction|reflexivity]. }
  assert (HNx : next (sh st) <= next (adv (sh st) f)).
  { destruct f as [? []|? []]; cbn; auto. destruct l as [|[]]; cbn; auto. }
  assert (HKeep : forall n o, slot (sh st) n = Some o -> slot (adv (sh st) f) n = Some o).
  { intros n o Ho. destruct (slot (adv (sh st) f) n) as [o'|] eqn:E.
    - destruct (HSl _ _ E) as [E'|(E' & _)]; congruence.
    - exfalso. apply (adv_slot_mono (sh st) f n); congruence. }
  constructor; cbn [sh put].
  - intros n o Ho. destruct (HSl _ _ Ho) as [E|(E1 & E2 & E3 & E4 & _)].
    + destruct (i_slot _ Hi _ _ E). split; [assumption|]. lia.
    + split; [assumption|]. lia.
  - intros n m o o' Ho Ho' E. destruct (HSl _ _ Ho) as [E1|(E1 & E2 & _ & _ & E3)]; destruct (HSl _ _ Ho') as [E1'|(E1' & E2' & _ & _ & E3')].
    + eapply (i_ids _ Hi); eassumption.
    + exfalso. destruct (i_slot _ Hi _ _ E1). lia.
    + exfalso. destruct (i_slot _ Hi _ _ E1'). lia.
    + destruct (N.eq_dec n m); [assumption|]. exfalso. rewrite E3' in Ho by assumption. congruence.
  - intros n Hfl. destruct (adv_flag (sh st) f n) as [E|[_ [(p & E)|(k & l & E)]]].
    + apply adv_slot_mono. apply (i_flag _ Hi). congruence.
    + subst f. destruct Hf as [_ Hf]. exact Hf.
    + subst f. destruct Hf as (_ & _ & pre & v & _ & _ & H & _). exact H.
  - (* half *)
    intros n Hn Hfl. destruct (adv_slot (sh st) f n) as [E|[(p & v & E)|(k & v & l & E)]].
    + rewrite E in Hn. assert (Hfl' : flag (sh st) n = false).
      { destruct (flag (sh st) n) eqn:E'; [|reflexivity]. rewrite (adv_flag_mono _ _ _ E') in Hfl. discriminate. }
      destruct (i_half _ Hi n Hn Hfl') as (u & g & Hg & Hb). destruct (Nat.eq_dec u t) as [->|Hne].
      * rewrite Hfr in Hg. destruct Hg as [<-|Hg].
        -- exfalso. destruct f as [m []|m []]; try discriminate Hb; cbn [setting] in Hb; apply N.eqb_eq in Hb; subst;
             cbn [advance snd with_flag flag] in Hfl; rewrite N.eqb_refl in Hfl; discriminate.
        -- exists t, g. rewrite put_same. cbn [th frames]. split; [apply in_or_app; right; exact Hg|exact Hb].
      * exists u, g. rewrite put_other by exact Hne. auto.
    + subst f. exists t. eexists. rewrite put_same. cbn [th frames advance fst app]. split; [left; reflexivity|]. cbn. apply N.eqb_refl.
    + subst f. exists t. eexists. rewrite put_same. cbn [th frames advance fst app]. split; [left; reflexivity|]. cbn. apply N.eqb_refl.
  - (* open *)
    intros k Ho Hk m v Hin. destruct (adv_opened (sh st) f k) as [E|[_ E]].
    + apply adv_flag_mono. eapply (i_open _ Hi); try eassumption. congruence.
    + subst f. destruct Hf as (_ & _ & pre & E & H & _). rewrite app_nil_r in E. cbn. rewrite E in Hin. eauto.
  - (* closed *)
    intros k Ho Hk. destruct (adv_opened (sh st) f k) as [E|[E _]]; [|congruence]. rewrite E in Ho.
    destruct (i_closed _ Hi k Ho Hk) as [H|(u & g & Hg & Hb)].
    + destruct f as [n a|k' a].
      * left. intros m v Hin. destruct (adv_slot (sh st) (FOwn n a) m) as [Es|[(p & w & Es)|(? & ? & ? & Es)]]; [rewrite Es; eauto| |discriminate].
        injection Es as -> _. exfalso. destruct Hf as [Hn _]. exact (own_not_member _ _ _ _ Hn Hk Hin eq_refl).
      * destruct (match a with CStore _ _ _ => true | _ => false end) eqn:Ea.
        -- destruct a; try discriminate. destruct (N.eq_dec k' k) as [->|Hne].
           ++ right. exists t. eexists. rewrite put_same. cbn [th frames advance fst app]. split; [left; reflexivity|]. cbn. apply N.eqb_refl.
           ++ left. intros m' v' Hin. cbn [advance snd with_slot slot]. destruct (N.eqb_spec m' m) as [->|]; [|eauto].
              exfalso. pose proof (fcond_member _ _ _ _ _ Hf) as Hmem. destruct Hf as [Hk' _].
              destruct (stream_own _ Hk) as (_ & _ & H1). destruct (stream_own _ Hk') as (_ & _ & H2).
              pose proof (H1 _ _ Hin). pose proof (H2 _ _ Hmem). congruence.
        -- left. intros m v Hin. destruct (adv_slot (sh st) (FIn k' a) m) as [Es|[(? & ? & Es)|(? & ? & ? & Es)]]; [rewrite Es; eauto|discriminate|].
           injection Es as -> ->. discriminate.
    + right. destruct (Nat.eq_dec u t) as [->|Hne].
      * rewrite Hfr in Hg. destruct Hg as [<-|Hg].
        -- destruct f as [m []|m []]; try discriminate Hb; cbn [busy] in Hb; exists t; rewrite put_same; cbn [th frames].
           ++ destruct l as [|[m' v'] l].
              ** exfalso. apply N.eqb_eq in Hb. subst m. cbn [advance snd with_opened opened] in E. rewrite N.eqb_refl in E. congruence.
              ** eexists. cbn [advance fst app]. split; [left; reflexivity|exact Hb].
           ++ eexists. cbn [advance fst app]. split; [left; reflexivity|exact Hb].
           ++ eexists. cbn [advance fst app]. split; [left; reflexivity|exact Hb].
        -- exists t, g. rewrite put_same. cbn [th frames]. split; [apply in_or_app; right; exact Hg|exact Hb].
      * exists u, g. rewrite put_other by exact Hne. auto.
  - (* mutexes *)
    assert (HM : forall u l, u <> t -> held th l = true -> held (threads st u) l = false).
    { intros u l Hne Hh. unfold held in Hh. apply existsb_exists in Hh. destruct Hh as (g & Hg & Hgl). cbn [th frames] in Hg.
      assert (Hold : held (threads st t) l = true -> held (threads st u) l = false) by (intros H; apply (i_mutex _ Hi t u); [congruence|exact H]).
      apply in_app_or in Hg. destruct Hg as [Hg|Hg].
      - destruct (advance_mutex _ _ _ _ Hf Hg Hgl) as [H|H].
        + apply Hold. unfold held. rewrite Hfr. cbn [existsb]. rewrite H. reflexivity.
        + rewrite H in Hneeds. apply Hneeds. exact Hne.
      - apply Hold. unfold held. rewrite Hfr. apply existsb_exists. exists g. split; [right; exact Hg|exact Hgl]. }
    intros t1 t2 l Hne Hh. destruct (Nat.eq_dec t1 t) as [->|H1].
    + rewrite put_same in Hh. rewrite put_other by congruence. apply HM; [congruence|exact Hh].
    + rewrite put_other in Hh by exact H1. destruct (Nat.eq_dec t2 t) as [->|H2].
      * rewrite put_same. destruct (held th l) eqn:E; [|reflexivity]. rewrite (HM _ _ H1 E) in Hh. discriminate.
      * rewrite put_other by exact H2. apply (i_mutex _ Hi t1); assumption.
  - intros u. destruct (Nat.eq_dec u t) as [->|Hne]; [|rewrite put_other by exact Hne; apply (i_shape _ Hi)].
    rewrite put_same. apply adv_shape; assumption.
  - exact HC.
  - intros u. destruct (Nat.eq_dec u t) as [->|Hne].
    + rewrite put_same. apply adv_posok; assumption.
    + rewrite put_other by exact Hne. destruct (adv_pos (sh st) f) as [E|E]; [rewrite E; apply (i_pos _ Hi)|].
      eapply posok_free; [|apply (i_pos _ Hi)]. apply (i_mutex _ Hi t u); [congruence|]. unfold held. rewrite Hfr. cbn [existsb]. rewrite E. reflexivity.
  - intros u Hu. destruct (Nat.eq_dec u t) as [->|Hne]; [|rewrite put_other in * by exact Hne; apply (i_bottom _ Hi), Hu].
    rewrite put_same in *. cbn [th frames asking] in *. destruct (i_bottom _ Hi t) as (n & Hn & Hb); [congruence|].
    exists n. split; [exact Hn|]. rewrite Hfr in Hb. eapply adv_bottom; eassumption.
  - intros u n Hu Ha. destruct (Nat.eq_dec u t) as [->|Hne].
    + rewrite put_same in *. cbn [th frames asking] in *. apply app_eq_nil in Hu. destruct Hu as [Hu ->].
      destruct (i_bottom _ Hi t) as (n' & Hn & Hb); [congruence|]. rewrite Ha in Hn. injection Hn as <-. rewrite Hfr in Hb. cbn [bottom] in Hb.
      destruct f as [m a|k a].
      * subst m. left. apply adv_flag_mono. destruct a; cbn [advance fst] in Hu; try discriminate.
        -- destruct (flag (sh st) n); [reflexivity|discriminate].
        -- apply app_eq_nil in Hu. destruct Hu. discriminate.
        -- destruct Hf as [_ Hf]. exact Hf.
      * destruct a; cbn [advance fst] in Hu; try discriminate.
        -- apply app_eq_nil in Hu. destruct Hu. discriminate.
        -- destruct l as [|[]]; discriminate.
        -- destruct Hf as [Hk Hf]. destruct (value_not_member _ _ Hb) as [H|(v & Hv)]; [right; exact H|left].
           cbn. eapply (i_open _ Hi); eassumption.
    + rewrite put_other in * by exact Hne. destruct (i_pending _ Hi _ _ Hu Ha); [left; apply adv_flag_mono; assumption|right; assumption].
  - intros u n x Hx. assert (Hx' : In (n, x) (got (threads st u))).
    { destruct (Nat.eq_dec u t) as [->|Hne]; [rewrite put_same in Hx; exact Hx|rewrite put_other in Hx by exact Hne; exact Hx]. }
    destruct (i_got _ Hi _ _ _ Hx') as [E1 E2]. split; [|exact E2]. destruct x as [o|].
    + symmetry. apply HKeep. congruence.
    + destruct (slot (adv (sh st) f) n) as [o|] eqn:E; [|reflexivity]. destruct (HSl _ _ E) as [E'|(_ & _ & E' & _)]; [congruence|].
      rewrite (E2 eq_refl) in E'. discriminate.
Qed.

Lemma call_cond : forall s n g, In g (call entry s n) -> fcond s g /\ (exists n', g = FOwn n' OLock \/ g = FIn n' CLock).
Proof.
  intros s n g Hg. unfold call in Hg. destruct (entry n) as [[d l|k]|] eqn:He; [| |destruct Hg].
  - destruct (flag s n); [destruct Hg|]. destruct Hg as [<-|[]]. split; [cbn; eauto|eauto].
  - destruct (flag s n); [destruct Hg|]. destruct Hg as [<-|[]]. split; [|eauto]. cbn. split; [exists n; exact He|exact I].
Qed.

Lemma inv_outside : forall st t th, inv st -> frames (threads st t) = [] ->
  (forall g, In g (frames th) -> fcond (sh st) g /\ exists n', g = FOwn n' OLock \/ g = FIn n' CLock) ->
  shape (frames th) -> posok (frames th) (pos (sh st)) ->
  (frames th <> [] -> exists n, asking th = Some n /\ bottom (frames th) n) ->
  (forall n, frames th = [] -> asking th = Some n -> flag (sh st) n = true \/ in_file entry parse unpack n = None) ->
  (forall n r, In (n, r) (got th) -> r = slot (sh st) n /\ (r = None -> in_file entry parse unpack n = None)) ->
  inv (put st t (sh st) th).
Proof.
  intros st t th Hi Hfr Hc Hsh Hp Hb Hpe Hg.
  assert (HW : forall u g, In g (frames (threads st u)) -> exists v, In g (frames (threads (put st t (sh st) th) v))).
  { intros u g Hin. destruct (Nat.eq_dec u t) as [->|Hne]; [rewrite Hfr in Hin; destruct Hin|]. exists u. rewrite put_other by exact Hne. exact Hin. }
  assert (HN : forall l, held th l = false).
  { intros l. unfold held. destruct (existsb _ _) eqn:E; [|reflexivity]. apply existsb_exists in E. destruct E as (g & Hin & Hl).
    destruct (Hc _ Hin) as [_ (n' & [->| ->])]; destruct l; discriminate. }
  constructor; cbn [sh put].
  - apply (i_slot _ Hi).
  - apply (i_ids _ Hi).
  - apply (i_flag _ Hi).
  - intros n H1 H2. destruct (i_half _ Hi n H1 H2) as (u & g & Hin & Hs'). destruct (HW _ _ Hin) as [v Hv]. exists v, g. auto.
  - apply (i_open _ Hi).
  - intros k H1 H2. destruct (i_closed _ Hi k H1 H2) as [H|(u & g & Hin & Hs')]; [left; exact H|right].
    destruct (HW _ _ Hin) as [v Hv]. exists v, g. auto.
  - intros t1 t2 l Hne Hh. destruct (Nat.eq_dec t1 t) as [->|H1]; [rewrite put_same, HN in Hh; discriminate|].
    rewrite put_other in Hh by exact H1. destruct (Nat.eq_dec t2 t) as [->|H2]; [rewrite put_same; apply HN|].
    rewrite put_other by exact H2. apply (i_mutex _ Hi t1); assumption.
  - intros u. destruct (Nat.eq_dec u t) as [->|Hne]; [rewrite put_same; exact Hsh|rewrite put_other by exact Hne; apply (i_shape _ Hi)].
  - intros u g. destruct (Nat.eq_dec u t) as [->|Hne]; [rewrite put_same; apply Hc|rewrite put_other by exact Hne; apply (i_cond _ Hi)].
  - intros u. destruct (Nat.eq_dec u t) as [->|Hne]; [rewrite put_same; exact Hp|rewrite put_other by exact Hne; apply (i_pos _ Hi)].
  - intros u. destruct (Nat.eq_dec u t) as [->|Hne]; [rewrite put_same; exact Hb|rewrite put_other by exact Hne; apply (i_bottom _ Hi)].
  - intros u n. destruct (Nat.eq_dec u t) as [->|Hne]; [rewrite put_same; apply Hpe|rewrite put_other by exact Hne; apply (i_pending _ Hi)].
  - intros u n r. destruct (Nat.eq_dec u t) as [->|Hne]; [rewrite put_same; apply Hg|rewrite put_other by exact Hne; apply (i_got _ Hi)].
Qed.

Lemma inv_step : forall t st st', inv st -> step entry parse unpack t st st' -> inv st'.
Proof.
  intros t st st' Hi Hst. destruct Hst as [f r Hfr Hn|n Hfr Ha|n l Hfr Ha Ht].
  - apply inv_inside; assumption.
  - apply inv_outside; cbn [frames asking got]; auto; try exact I; try (intros; discriminate); try (intros; contradiction).
    intros m r [E|Hin]; [|apply (i_got _ Hi t); exact Hin]. injection E as <- <-. split; [reflexivity|]. intros Hno.
    destruct (i_pending _ Hi _ _ Hfr Ha) as [H|H]; [|exact H]. exfalso. apply (i_flag _ Hi _ H Hno).
  - apply inv_outside; cbn [frames asking got]; auto.
    + intros g Hg. eapply call_cond. exact Hg.
    + unfold call. destruct (entry n) as [[]|]; [| |exact I]; destruct (flag (sh st) n); cbn; auto.
    + unfold call. destruct (entry n) as [[]|]; [| |exact I]; destruct (flag (sh st) n); cbn; auto.
    + intros Hne. exists n. split; [reflexivity|]. unfold call in *. destruct (entry n) as [[]|] eqn:He; [| |contradiction];
        destruct (flag (sh st) n); try contradiction; cbn; auto.
    + intros m Hne E. injection E as <-. unfold call in Hne. unfold in_file. destruct (entry n) as [[]|] eqn:He; [| |auto];
        destruct (flag (sh st) n); try discriminate; auto.
    + apply (i_got _ Hi t).
Qed.

Lemma inv_runs : forall k st st', runs entry parse unpack k st st' -> inv st -> inv st'.
Proof. intros k st st' Hr. induction Hr; intros Hi; [exact Hi|]. eapply IHHr, inv_step; eassumption. Qed.

(** a slot once filled is never changed *)
Lemma step_slot : forall t st st' n o, inv st -> step entry parse unpack t st st' -> slot (sh st) n = Some o -> slot (sh st') n = Some o.
Proof.
  intros t st st' n o Hi Hst Ho. destruct Hst as [f r Hfr Hn|m Hfr Ha|m l Hfr Ha Ht]; cbn [sh put]; auto.
  assert (Hf : fcond (sh st) f) by (apply (i_cond _ Hi t); rewrite Hfr; left; reflexivity).
  destruct (adv_slot (sh st) f n) as [E|[(p & v & E)|(k & v & l & E)]]; [congruence| |]; subst f; exfalso.
  - destruct Hf as (_ & Hf & _). congruence.
  - destruct Hf as (_ & _ & pre & _ & _ & Hf). rewrite (Hf n v) in Ho; [discriminate|left; reflexivity].
Qed.

(** ** somebody can always go on *)
Variable T : nat.
Record quiet (st : state) : Prop := {
  q_inv : inv st;
  q_idle : forall t, T <= t -> finished (threads st t);
  q_todo : forall t n, In n (todo (threads st t)) -> ~ is_length entry n;
  q_ask : forall t n, asking (threads st t) = Some n -> ~ is_length entry n
}.
Hypothesis Hstr : forall k, is_object_stream entry k -> ~ is_length entry k.

Lemma quiet_start : forall p program, (forall t, T <= t -> program t = []) -> (forall t n, In n (program t) -> ~ is_length entry n) ->
  quiet (start p program).
Proof.
  intros p program H1 H2. constructor; [apply inv_start| | |]; cbn; try discriminate; eauto.
  intros t Ht. unfold finished. cbn. auto.
Qed.

Lemma quiet_step : forall t st st', quiet st -> step entry parse unpack t st st' -> quiet st'.
Proof.
  intros t st st' Hq Hst. constructor.
  - eapply inv_step; [apply Hq|exact Hst].
  - intros u Hu. pose proof (q_idle _ Hq _ Hu) as (F1 & F2 & F3). destruct (Nat.eq_dec u t) as [->|Hne].
    + exfalso. destruct Hst; congruence.
    + destruct Hst; rewrite put_other by exact Hne; repeat split; assumption.
  - intros u n Hn. destruct (Nat.eq_dec u t) as [->|Hne].
    + destruct Hst as [f r Hfr Hnd|m Hfr Ha|m l Hfr Ha Ht]; rewrite put_same in Hn; cbn [todo] in Hn; apply (q_todo _ Hq t); auto.
      rewrite Ht. right. exact Hn.
    + destruct Hst; rewrite put_other in Hn by exact Hne; apply (q_todo _ Hq u); assumption.
  - intros u n Hn. destruct (Nat.eq_dec u t) as [->|Hne].
    + destruct Hst as [f r Hfr Hnd|m Hfr Ha|m l Hfr Ha Ht]; rewrite put_same in Hn; cbn [asking] in Hn.
      * apply (q_ask _ Hq t); exact Hn.
      * discriminate.
      * injection Hn as <-. apply (q_todo _ Hq t). rewrite Ht. left. reflexivity.
    + destruct Hst; rewrite put_other in Hn by exact Hne; apply (q_ask _ Hq u); assumption.
Qed.

Lemma quiet_runs : forall k st st', runs entry parse unpack k st st' -> quiet st -> quiet st'.
Proof. intros k st st' Hr. induction Hr; intros Hq; [exact Hq|]. eapply IHHr, quiet_step; eassumption. Qed.

Lemma find_below : forall (P : nat -> bool) n, (exists u, u < n /\ P u = true) \/ forall u, u < n -> P u = false.
Proof.
  intros P. induction n as [|n IH]; [right; lia|]. destruct IH as [(u & H1 & H2)|IH]; [left; exists u; auto|].
  destruct (P n) eqn:E; [left; exists n; auto|]. right. intros u Hu. destruct (Nat.eq_dec u n) as [->|]; [exact E|apply IH; lia].
Qed.

Lemma holder : forall st l, quiet st -> (exists u, held (threads st u) l = true) \/ forall u, held (threads st u) l = false.
Proof.
  intros st l Hq. destruct (find_below (fun u => held (threads st u) l) T) as [(u & _ & H)|H]; [left; eauto|right].
  intros u. destruct (le_lt_dec T u) as [Hu|Hu]; [|auto]. destruct (q_idle _ Hq _ Hu) as (F & _). unfold held. rewrite F. reflexivity.
Qed.

Notation moves st := (exists u st', step entry parse unpack u st st').

Lemma can_move : forall (st : state) t f r, frames (threads st t) = f :: r -> match needs f with Some l => free_for st t l | None => True end -> moves st.
Proof. intros st t f r H1 H2. eexists t, _. eapply step_inside; eassumption. Qed.

Lemma holds_entry : forall (st : state) u n, inv st -> own n -> held (threads st u) (LEntry n) = true ->
  exists a, In (FOwn n a) (frames (threads st u)) /\ a <> OLock.
Proof.
  intros st u n Hi Hn Hh. unfold held in Hh. apply existsb_exists in Hh. destruct Hh as (g & Hg & Hl). destruct g as [m a|k a].
  - exists a. assert (m = n /\ a <> OLock) as [-> Ha]; [|auto].
    destruct a; cbn [holds] in Hl; try discriminate; apply N.eqb_eq in Hl; split; auto; discriminate.
  - exfalso. destruct a; try discriminate Hl. cbn [holds] in Hl. apply N.eqb_eq in Hl. subst m.
    pose proof (i_cond _ Hi _ _ Hg) as Hc. pose proof (fcond_member _ _ _ _ _ Hc) as Hm. destruct Hc as [Hk _].
    exact (own_not_member _ _ _ _ Hn Hk Hm eq_refl).
Qed.

Lemma member_free : forall (st : state) t k m v l, inv st -> In (FIn k (CMembers ((m, v) :: l))) (frames (threads st t)) -> free_for st t (LEntry m).
Proof.
  intros st t k m v l Hi Hin u Hne. destruct (held (threads st u) (LEntry m)) eqn:Hh; [|reflexivity]. exfalso.
  pose proof (i_cond _ Hi _ _ Hin) as (Hk & _ & pre & E & _).
  assert (Hmem : In (m, v) (members k)) by (rewrite E; apply in_elt).
  unfold held in Hh. apply existsb_exists in Hh. destruct Hh as (g & Hg & Hl).
  pose proof (i_cond _ Hi _ _ Hg) as Hgc. destruct g as [n a|k' a].
  - destruct Hgc as [Hn _]. assert (n = m) by (destruct a; cbn [holds] in Hl; try discriminate; apply N.eqb_eq in Hl; exact Hl).
    exact (own_not_member _ _ _ _ Hn Hk Hmem H).
  - assert (held (threads st t) LStreams = true) by (unfold held; apply existsb_exists; eexists; split; [exact Hin|reflexivity]).
    assert (Hne' : t <> u) by congruence. pose proof (i_mutex _ Hi _ _ _ Hne' H) as Hu.
    assert (held (threads st u) LStreams = true); [|congruence].
    unfold held. apply existsb_exists. eexists. split; [exact Hg|]. destruct a; try discriminate Hl; reflexivity.
Qed.

Lemma length_in_input : forall fs n k a, shape fs -> bottom fs n -> ~ is_length entry n -> is_length entry k -> In (FOwn k a) fs ->
  (forall g, In g fs -> match g with FIn s _ => is_object_stream entry s | _ => True end) -> existsb (fun f => holds f LInput) fs = true.
Proof.
  induction fs as [|f r IH]; intros n k a Hsh Hb Hn Hk Hin Hall; [destruct Hin|].
  cbn [existsb]. apply orb_true_iff. destruct r as [|g r].
  - exfalso. destruct Hin as [->|[]]. cbn [bottom] in Hb. subst k. contradiction.
  - destruct Hin as [->|Hin].
    + right. destruct Hsh as [Hc _]. cbn [existsb]. destruct g as [m []|s []]; cbn [calls] in Hc; try contradiction; [reflexivity|].
      exfalso. subst s. apply (Hstr k); [|exact Hk]. apply (Hall (FIn k CCheck)). right. left. reflexivity.
    + right. eapply IH; try eassumption; [exact (proj2 Hsh)|]. intros h Hh. apply Hall. right. exact Hh.
Qed.

Lemma move_input : forall st u, quiet st -> held (threads st u) LInput = true -> moves st.
Proof.
  intros st u Hq Hh. pose proof (q_inv _ Hq) as Hi. pose proof (i_shape _ Hi u) as Hsh.
  destruct (frames (threads st u)) as [|f r] eqn:Hfr; [unfold held in Hh; rewrite Hfr in Hh; discriminate|].
  apply (can_move st u f r Hfr). destruct (needs f) as [l|] eqn:Hn; [|exact I].
  assert (HR : holds f LInput = true \/ existsb (fun f => holds f LInput) r = true).
  { unfold held in Hh. rewrite Hfr in Hh. cbn [existsb] in Hh. apply orb_true_iff in Hh. exact Hh. }
  destruct f as [n a|k a].
  - destruct a; try discriminate Hn; injection Hn as <-.
    + intros w Hw. destruct (held (threads st w) (LEntry n)) eqn:Ew; [|reflexivity]. exfalso.
      destruct HR as [HR|HR]; [discriminate HR|]. destruct r as [|g r]; [discriminate HR|].
      assert (Hlen : is_length entry n).
      { pose proof Hsh as [Hc Hsh']. destruct g as [m []|s []]; cbn [calls] in Hc; try contradiction.
        - unfold len_of in Hc. destruct (entry m) as [[d x|]|] eqn:Em; try discriminate. subst x. exists m, d. exact Em.
        - exfalso. pose proof (shape_in _ _ _ Hsh') as ->. discriminate HR. }
      assert (Hon : own n). { apply (i_cond _ Hi u (FOwn n OLock)). rewrite Hfr. left. reflexivity. }
      destruct (holds_entry _ _ _ Hi Hon Ew) as (b & Hb & _).
      destruct (i_bottom _ Hi w) as (x & Hx & Hbt); [intros E; rewrite E in Hb; destruct Hb|].
      assert (Hwi : held (threads st w) LInput = true).
      { unfold held. eapply length_in_input; [apply (i_shape _ Hi)|exact Hbt|apply (q_ask _ Hq w); exact Hx|exact Hlen|exact Hb|].
        intros h Hin. pose proof (i_cond _ Hi _ _ Hin) as Hc. destruct h; [exact I|exact (proj1 Hc)]. }
      assert (Hne : w <> u) by congruence. rewrite (i_mutex _ Hi w u LInput Hne Hwi) in Hh. discriminate.
    + intros w Hw. apply (i_mutex _ Hi u w); [congruence|exact Hh].
  - pose proof (shape_in _ _ _ Hsh) as ->. destruct HR as [HR|HR]; [|discriminate HR].
    destruct a; try discriminate HR; try discriminate Hn.
Qed.

Lemma move_entry : forall st u n, quiet st -> (forall w, held (threads st w) LInput = false) -> own n -> held (threads st u) (LEntry n) = true -> moves st.
Proof.
  intros st u n Hq Hno Hn Hh. pose proof (q_inv _ Hq) as Hi. pose proof (i_shape _ Hi u) as Hsh.
  destruct (holds_entry _ _ _ Hi Hn Hh) as (a & Ha & Hne).
  destruct (frames (threads st u)) as [|f r] eqn:Hfr; [destruct Ha|].
  destruct Ha as [->|Ha].
  - apply (can_move st u _ r Hfr). destruct a; try contradiction; cbn [needs]; auto. intros w _. apply Hno.
  - exfalso. destruct f as [m b|k b].
    + pose proof (shape_own _ _ _ Hsh _ Ha) as [_ (p & ->)]. specialize (Hno u). unfold held in Hno. rewrite Hfr in Hno. cbn [existsb] in Hno.
      apply orb_false_iff in Hno. destruct Hno as [_ Hno].
      assert (existsb (fun f => holds f LInput) r = true); [|congruence]. apply existsb_exists. eexists. split; [exact Ha|reflexivity].
    + pose proof (shape_in _ _ _ Hsh) as ->. destruct Ha.
Qed.

Lemma move_top : forall st u f r, quiet st -> (forall w, held (threads st w) LInput = false) ->
  frames (threads st u) = f :: r -> needs f <> Some LStreams -> moves st.
Proof.
  intros st u f r Hq Hno Hfr Hnl. pose proof (q_inv _ Hq) as Hi. destruct f as [n a|k a].
  - destruct (match a with OLock => true | _ => false end) eqn:Ea.
    + destruct a; try discriminate. assert (Hon : own n). { apply (i_cond _ Hi u (FOwn n OLock)). rewrite Hfr. left. reflexivity. }
      destruct (holder st (LEntry n) Hq) as [(w & Hw)|Hw]; [eapply move_entry; eassumption|].
      apply (can_move st u _ r Hfr). intros w _. apply Hw.
    + apply (can_move st u _ r Hfr). destruct a; try discriminate; cbn [needs]; auto. intros w _. apply Hno.
  - apply (can_move st u _ r Hfr). destruct a; cbn [needs] in *; auto; try contradiction.
    + intros w _. apply Hno.
    + destruct l as [|[m v] l]; [exact I|]. eapply member_free; [exact Hi|]. rewrite Hfr. left. reflexivity.
Qed.

Lemma progress : forall st t, quiet st -> ~ finished (threads st t) -> moves st.
Proof.
  intros st t Hq Hnf. pose proof (q_inv _ Hq) as Hi.
  destruct (frames (threads st t)) as [|f r] eqn:Hfr.
  - destruct (asking (threads st t)) as [n|] eqn:Ha; [eexists t, _; eapply step_return; eassumption|].
    destruct (todo (threads st t)) as [|n l] eqn:Ht; [exfalso; apply Hnf; repeat split; assumption|].
    eexists t, _. eapply step_ask; eassumption.
  - destruct (holder st LInput Hq) as [(u & Hu)|Hno]; [eapply move_input; eassumption|].
    destruct (holder st LStreams Hq) as [(u & Hu)|Hns].
    + destruct (frames (threads st u)) as [|g s] eqn:Hfu; [unfold held in Hu; rewrite Hfu in Hu; discriminate|].
      eapply (move_top st u); try eassumption. intros E. destruct g as [n []|k []]; try discriminate E.
      * pose proof (i_shape _ Hi u) as Hsh. rewrite Hfu in Hsh. pose proof (shape_in _ _ _ Hsh) as ->. unfold held in Hu. rewrite Hfu in Hu. discriminate.
      * cbn [needs] in E. destruct l as [|[]]; discriminate.
    + destruct f as [n a|k a].
      * eapply (move_top st t); try eassumption. intros E. destruct a; discriminate.
      * destruct a; try (eapply (move_top st t); [exact Hq|exact Hno|exact Hfr|discriminate]).
        -- apply (can_move st t _ r Hfr). intros w _. apply Hns.
        -- eapply (move_top st t); [exact Hq|exact Hno|exact Hfr|]. destruct l as [|[]]; discriminate.
Qed.

(** ** and this ends *)
Definition fweight (f : frame) : nat :=
  match f with
  | FOwn n a =>
      match a with
      | OLock => 10 + 10 * rank n | OAgain => 9 + 10 * rank n | OInput => 8 + 10 * rank n | OSeek => 7 + 10 * rank n
      | OLength _ => 6 + 10 * rank n | ORead _ => 5 | OStore _ _ => 4 | OFlag _ => 3 | ORewind _ => 2 | ORelease => 1
      end
  | FIn k a =>
      let M := List.length (members k) in
      match a with
      | CLock => 18 + 3 * M + 10 * rank k | CStream => 17 + 3 * M + 10 * rank k | CCheck => 6 + 3 * M | CInput => 5 + 3 * M
      | CSeek => 4 + 3 * M | CUnpack => 3 + 3 * M | CMembers l => 2 + 3 * List.length l | CStore _ _ l => 4 + 3 * List.length l
      | CFlag _ l => 3 + 3 * List.length l | CRelease => 1
      end
  end.
Definition ask_weight (n : N) : nat :=
  match entry n with
  | Some (Own _ _) => 10 + 10 * rank n
  | Some (Inside k) => 18 + 3 * List.length (members k) + 10 * rank k
  | None => 0
  end.
Fixpoint sum {A} (w : A -> nat) (l : list A) : nat := match l with [] => 0 | x :: r => w x + sum w r end.
Lemma sum_app : forall {A} (w : A -> nat) l l', sum w (l ++ l') = sum w l + sum w l'.
Proof. induction l; intros; cbn [sum app]; [reflexivity|]. rewrite IHl. lia. Qed.
Definition tweight (th : @thread V) : nat :=
  sum fweight (frames th) + (match asking th with Some _ => 1 | None => 0 end) + sum (fun n => 2 + ask_weight n) (todo th).
Fixpoint total (k : nat) (st : state) : nat := match k with 0 => 0 | S k => tweight (threads st k) + total k st end.

Lemma call_weight : forall s n, sum fweight (call entry s n) <= ask_weight n.
Proof.
  intros s n. unfold call, ask_weight. destruct (entry n) as [[d l|k]|]; [| |cbn; lia]; destruct (flag s n); cbn [sum fweight]; lia.
Qed.

Lemma advance_weight : forall s f r, fcond s f -> shape (f :: r) -> posok (f :: r) (pos s) -> sum fweight (new s f) < fweight f.
Proof.
  intros s f r Hf Hsh Hp. destruct f as [n a|k a].
  - destruct a; cbn [advance fst sum fweight]; try lia.
    + destruct (flag s n); cbn [sum fweight]; lia.
    + rewrite sum_app. cbn [sum fweight]. destruct (len_of entry n) as [k|] eqn:El; [|cbn [sum]; lia].
      destruct (length_own _ _ El) as [(d & l & Hk) Hr]. pose proof (call_weight s k) as Hc. unfold ask_weight in Hc. rewrite Hk in Hc. lia.
  - destruct a; cbn [advance fst sum fweight]; try lia.
    + rewrite sum_app. cbn [sum fweight]. destruct (stream_own k) as ((d & l & Hk) & _); [apply Hf|].
      pose proof (call_weight s k) as Hc. unfold ask_weight in Hc. rewrite Hk in Hc. lia.
    + destruct (opened s k); cbn [fweight]; lia.
    + apply shape_in in Hsh. subst r. cbn [posok] in Hp. rewrite Hp. lia.
    + destruct l as [|[m v] l]; cbn [fst sum fweight List.length]; lia.
Qed.

Lemma step_weight : forall t st st', inv st -> step entry parse unpack t st st' ->
  tweight (threads st' t) < tweight (threads st t) /\ forall u, u <> t -> threads st' u = threads st u.
Proof.
  intros t st st' Hi Hst. split; [|destruct Hst; intros; apply put_other; assumption].
  destruct Hst as [f r Hfr Hn|n Hfr Ha|n l Hfr Ha Ht]; rewrite put_same; unfold tweight; cbn [frames asking todo].
  - rewrite Hfr, sum_app. cbn [sum].
    assert (sum fweight (new (sh st) f) < fweight f); [|lia]. eapply (advance_weight _ _ r).
    + apply (i_cond _ Hi t). rewrite Hfr. left. reflexivity.
    + rewrite <- Hfr. apply (i_shape _ Hi).
    + rewrite <- Hfr. apply (i_pos _ Hi).
  - rewrite Hfr, Ha. cbn [sum]. lia.
  - rewrite Hfr, Ha, Ht. cbn [sum]. pose proof (call_weight (sh st) n). lia.
Qed.

Lemma total_step : forall k t st st', tweight (threads st' t) < tweight (threads st t) -> (forall u, u <> t -> threads st' u = threads st u) ->
  (t < k -> total k st' < total k st) /\ total k st' <= total k st.
Proof.
  intros k t st st' Ht Hu. induction k as [|k [IH1 IH2]]; cbn [total]; [lia|].
  destruct (Nat.eq_dec k t) as [->|Hne]; [lia|]. rewrite (Hu _ Hne). split; [|lia]. intros. assert (t < k) by lia. specialize (IH1 H0). lia.
Qed.

Lemma runs_bound : forall k st st', runs entry parse unpack k st st' -> quiet st -> k + total T st' <= total T st.
Proof.
  intros k st st' Hr. induction Hr as [st|k t st st' st'' Hst Hr IH]; intros Hq; [lia|].
  pose proof (quiet_step _ _ _ Hq Hst) as Hq'. specialize (IH Hq').
  destruct (step_weight _ _ _ (q_inv _ Hq) Hst) as [H1 H2]. destruct (total_step T _ _ _ H1 H2) as [H3 _].
  assert (t < T); [|specialize (H3 H); lia].
  destruct (le_lt_dec T t) as [Ht|Ht]; [|exact Ht]. exfalso. destruct (q_idle _ Hq _ Ht) as (F1 & F2 & F3). destruct Hst; congruence.
Qed.

Definition done (th : @thread V) : bool :=
  match frames th, asking th, todo th with [], None, [] => true | _, _, _ => false end.
Lemma done_ok : forall th, done th = true <-> finished th.
Proof.
  intros [fr a td g]. unfold done, finished. cbn. destruct fr, a, td; split; intros H; try discriminate; auto; destruct H as (? & ? & ?); discriminate.
Qed.

Lemma can_finish : forall b st, total T st <= b -> quiet st -> exists k st', runs entry parse unpack k st st' /\ all_finished st'.
Proof.
  induction b as [b IH] using lt_wf_ind. intros st Hb Hq.
  destruct (find_below (fun u => negb (done (threads st u))) T) as [(u & _ & Hu)|Hall].
  - destruct (progress st u Hq) as (t & st1 & Hst).
    { intros Hf. apply done_ok in Hf. rewrite Hf in Hu. discriminate. }
    assert (Hr : runs entry parse unpack 1 st st1) by (econstructor; [exact Hst|constructor]).
    pose proof (runs_bound _ _ _ Hr Hq) as Hlt. destruct (IH (total T st1)) with (st := st1) as (k & st2 & Hr2 & Hf2); try lia.
    + eapply quiet_step; eassumption.
    + exists (S k), st2. split; [econstructor; eassumption|exact Hf2].
  - exists 0, st. split; [constructor|]. intros u. destruct (le_lt_dec T u) as [Hu|Hu]; [apply (q_idle _ Hq), Hu|].
    apply done_ok. specialize (Hall u Hu). cbn in Hall. destruct (done (threads st u)); [reflexivity|discriminate].
Qed.
End P.

(** ** one thread *)
Section One.
Context {V : Type}.
Variable entry : N -> option where_is.
Variable parse : N -> Z -> V * Z.
Variable unpack : N -> Z -> list (N * V).

Lemma alone_runs : forall k st st' t, runs entry parse unpack k st st' -> (forall u, u <> t -> finished (threads st u)) ->
  forall u, u <> t -> finished (threads st' u).
Proof.
  intros k st st' t Hr. induction Hr as [st|k t' st st' st'' Hst Hr IH]; intros H; [exact H|].
  apply IH. intros u Hu. destruct (Nat.eq_dec t' t) as [->|Hne].
  - assert (E : threads st' u = threads st u) by (destruct Hst; apply put_other; assumption). rewrite E. auto.
  - exfalso. destruct (H _ Hne) as (F1 & F2 & F3). destruct Hst; congruence.
Qed.

Lemma alone_moves : forall (st : state) t, (forall u, u <> t -> finished (threads st u)) -> ~ finished (threads st t) ->
  exists st', step entry parse unpack t st st'.
Proof.
  intros st t H Hnf. destruct (frames (threads st t)) as [|f r] eqn:Hfr.
  - destruct (asking (threads st t)) as [n|] eqn:Ha; [eexists; eapply step_return; eassumption|].
    destruct (todo (threads st t)) as [|n l] eqn:Ht; [exfalso; apply Hnf; repeat split; assumption|].
    eexists. eapply step_ask; eassumption.
  - eexists. eapply step_inside; [exact Hfr|]. destruct (needs f); [|exact I]. intros u Hu. destruct (H u Hu) as (F & _). unfold held. rewrite F. reflexivity.
Qed.
End One.

(** ** single executions *)
Section Exec.
Context {V : Type}.
Variable entry : N -> option where_is.
Variable parse : N -> Z -> V * Z.
Variable unpack : N -> Z -> list (N * V).
Notation steps := (runs entry parse unpack).
Notation state := (@state V).

Lemma runs_trans : forall k st st', steps k st st' -> forall k' st'', steps k' st' st'' -> steps (k + k') st st''.
Proof. intros k st st' Hr. induction Hr; intros k' st3 H3; [exact H3|]. cbn. econstructor; [eassumption|auto]. Qed.

(** the thread is in these calls, everything else as in the first state *)
Definition reached (st : state) (t : nat) (st' : state) (s : shared) (fs : list frame) : Prop :=
  sh st' = s /\ frames (threads st' t) = fs /\ asking (threads st' t) = asking (threads st t) /\ todo (threads st' t) = todo (threads st t)
  /\ got (threads st' t) = got (threads st t) /\ forall u, u <> t -> threads st' u = threads st u.

Lemma go : forall (st : state) t f r, frames (threads st t) = f :: r -> match needs f with Some l => free_for st t l | None => True end ->
  exists st', steps 1 st st' /\
    reached st t st' (snd (advance entry parse unpack (sh st) f)) (fst (advance entry parse unpack (sh st) f) ++ r).
Proof.
  intros st t f r Hfr Hn. eexists. split.
  - econstructor; [eapply step_inside; eassumption|constructor].
  - unfold reached. rewrite put_same. cbn. repeat split. intros u Hu. destruct (Nat.eqb_spec u t); [contradiction|reflexivity].
Qed.

Lemma go_ask : forall (st : state) t n l, frames (threads st t) = [] -> asking (threads st t) = None -> todo (threads st t) = n :: l ->
  exists st', steps 1 st st' /\ sh st' = sh st /\ frames (threads st' t) = call entry (sh st) n /\ asking (threads st' t) = Some n
    /\ todo (threads st' t) = l /\ got (threads st' t) = got (threads st t) /\ forall u, u <> t -> threads st' u = threads st u.
Proof.
  intros st t n l H1 H2 H3. eexists. split.
  - econstructor; [eapply step_ask; eassumption|constructor].
  - rewrite put_same. cbn. repeat split. intros u Hu. destruct (Nat.eqb_spec u t); [contradiction|reflexivity].
Qed.

(** several steps of one thread, the mutexes it needs being free *)
Inductive walk (free : lock -> Prop) : shared -> list frame -> shared -> list frame -> Prop :=
| walk_none : forall s fs, walk free s fs s fs
| walk_step : forall s f r s' fs',
    match needs f with Some l => free l | None => True end ->
    walk free (snd (advance entry parse unpack s f)) (fst (advance entry parse unpack s f) ++ r) s' fs' ->
    walk free s (f :: r) s' fs'.

Lemma walk_trans : forall free s fs s' fs', walk free s fs s' fs' -> forall s'' fs'', walk free s' fs' s'' fs'' -> walk free s fs s'' fs''.
Proof. intros free s fs s' fs' H. induction H; intros; [assumption|]. econstructor; [assumption|auto]. Qed.

Lemma go_walk : forall free s fs s' fs', walk free s fs s' fs' ->
  forall (st : state) t, sh st = s -> frames (threads st t) = fs -> (forall l, free l -> free_for st t l) ->
  exists k st', steps k st st' /\ reached st t st' s' fs'.
Proof.
  intros free s fs s' fs' Hw. induction Hw as [s fs|s f r s' fs' Hn Hw IH]; intros st t Hs Hfr Hfree.
  - exists 0, st. split; [constructor|]. repeat split; assumption.
  - destruct (go st t f r Hfr) as (st1 & Hr1 & E1 & E2 & E3 & E4 & E5 & E6).
    { destruct (needs f); [apply Hfree, Hn|exact I]. }
    rewrite Hs in *. destruct (IH st1 t E1 E2) as (k & st2 & Hr2 & F1 & F2 & F3 & F4 & F5 & F6).
    { intros l Hl u Hu. rewrite E6 by exact Hu. apply Hfree; assumption. }
    exists (1 + k), st2. split; [eapply runs_trans; eassumption|]. repeat split; try congruence.
    intros u Hu. rewrite F6, E6 by exact Hu. reflexivity.
Qed.

(** two threads that wait for each other *)
Lemma stuck_pair : forall (st : state) t u f r g q l l', t <> u ->
  frames (threads st t) = f :: r -> frames (threads st u) = g :: q ->
  needs f = Some l -> needs g = Some l' -> held (threads st u) l = true -> held (threads st t) l' = true ->
  stuck entry parse unpack st t /\ stuck entry parse unpack st u.
Proof.
  intros st t u f r g q l l' Hne Hf Hg Hl Hl' Hh Hh'.
  assert (HS : forall k st1 st2, steps k st1 st2 -> threads st1 t = threads st t -> threads st1 u = threads st u ->
            threads st2 t = threads st t /\ threads st2 u = threads st u).
  { intros k st1 st2 Hr. induction Hr as [st1|k w st1 st2 st3 Hst Hr IH]; intros H1 H2; [auto|].
    assert (Hwt : w <> t).
    { intros ->. destruct Hst as [f0 r0 Hfr Hn|n Hfr Ha|n x Hfr Ha Ht]; rewrite H1, Hf in Hfr; try discriminate.
      injection Hfr as <- <-. rewrite Hl in Hn. specialize (Hn u (not_eq_sym Hne)). rewrite H2 in Hn. congruence. }
    assert (Hwu : w <> u).
    { intros ->. destruct Hst as [f0 r0 Hfr Hn|n Hfr Ha|n x Hfr Ha Ht]; rewrite H2, Hg in Hfr; try discriminate.
      injection Hfr as <- <-. rewrite Hl' in Hn. specialize (Hn t Hne). rewrite H1 in Hn. congruence. }
    apply IH; destruct Hst; rewrite put_other by congruence; assumption. }
  split; (split; [intros (F & _); congruence|intros k st' Hr; apply (HS _ _ _ Hr); reflexivity]).
Qed.

Lemma start_free : forall p program (t : nat) l, free_for (V := V) (start p program) t l.
Proof. intros p program t l u _. reflexivity. Qed.

(** a thread at the start of its first call *)
Lemma go_first : forall (st : state) t n l, frames (threads st t) = [] -> asking (threads st t) = None -> todo (threads st t) = n :: l ->
  forall s' fs', walk (free_for st t) (sh st) (call entry (sh st) n) s' fs' ->
  exists k st', steps k st st' /\ sh st' = s' /\ frames (threads st' t) = fs' /\ asking (threads st' t) = Some n /\ todo (threads st' t) = l
    /\ got (threads st' t) = got (threads st t) /\ forall u, u <> t -> threads st' u = threads st u.
Proof.
  intros st t n l H1 H2 H3 s' fs' Hw. destruct (go_ask st t n l H1 H2 H3) as (st1 & Hr & E1 & E2 & E3 & E4 & E5 & E6).
  destruct (go_walk _ _ _ _ _ Hw st1 t E1 E2) as (k & st2 & Hr2 & F1 & F2 & F3 & F4 & F5 & F6).
  { intros x Hx u Hu. rewrite E6 by exact Hu. apply Hx, Hu. }
  exists (1 + k), st2. split; [eapply runs_trans; eassumption|]. repeat split; try congruence. intros u Hu. rewrite F6, E6 by exact Hu. reflexivity.
Qed.

Ltac one := eapply walk_step; [try exact I|cbn [advance fst snd app]].

(** up to the Length of a stream *)
Lemma walk_length : forall (free : lock -> Prop) s n d k r, entry n = Some (Own d (Some k)) -> flag s n = false -> free (LEntry n) -> free LInput ->
  walk free s (FOwn n OLock :: r) (at_pos s d) (call entry (at_pos s d) k ++ FOwn n (ORead (pos s)) :: r).
Proof.
  intros free s n d k r He Hf H1 H2. one; [exact H1|]. one. rewrite Hf. cbn [app]. one; [exact H2|]. one.
  assert (Ed : data_of entry n = d) by (unfold data_of; rewrite He; reflexivity). rewrite Ed. one.
  unfold len_of. rewrite He. rewrite <- app_assoc. cbn [app]. apply walk_none.
Qed.

Lemma deadlock : forall p program t u n k d d' x rest rest', t <> u -> n <> k ->
  entry n = Some (Own d (Some k)) -> entry k = Some (Own d' x) -> program t = k :: rest -> program u = n :: rest' ->
  exists j st, steps j (start p program) st /\ stuck entry parse unpack st t /\ stuck entry parse unpack st u.
Proof.
  intros p program t u n k d d' x rest rest' Htu Hnk Hn Hk Ht Hu.
  set (s0 := @fresh V p).
  destruct (go_first (start p program) t k rest) with (s' := s0) (fs' := [@FOwn V k OInput]) as (j1 & st1 & R1 & E1 & E2 & E3 & E4 & E5 & E6); auto.
  { cbn [start sh]. unfold call. rewrite Hk. cbn [fresh flag]. one; [apply start_free|]. one. cbn [fresh flag app]. apply walk_none. }
  destruct (go_first st1 u n rest') with (s' := at_pos s0 d) (fs' := [@FOwn V k OLock; FOwn n (ORead p)]) as (j2 & st2 & R2 & F1 & F2 & F3 & F4 & F5 & F6);
    try (rewrite E6 by congruence; cbn; auto; fail).
  { rewrite E1. unfold call. rewrite Hn. cbn [s0 fresh flag].
    pose proof (walk_length (free_for st1 u) s0 n d k [] Hn eq_refl) as Hw. unfold call in Hw. rewrite Hk in Hw. cbn [s0 fresh at_pos flag app] in Hw. apply Hw.
    - intros w Hw'. destruct (Nat.eq_dec w t) as [->|Hwt]; [|rewrite E6 by exact Hwt; reflexivity].
      unfold held. rewrite E2. cbn. destruct (N.eqb_spec k n); [congruence|reflexivity].
    - intros w Hw'. destruct (Nat.eq_dec w t) as [->|Hwt]; [|rewrite E6 by exact Hwt; reflexivity].
      unfold held. rewrite E2. reflexivity. }
  exists (j1 + j2), st2. split; [eapply runs_trans; eassumption|].
  assert (Et : frames (threads st2 t) = [FOwn k OInput]) by (rewrite F6 by congruence; exact E2).
  eapply (stuck_pair st2 t u); try eassumption; try reflexivity.
  - unfold held. rewrite F2. reflexivity.
  - unfold held. rewrite Et. cbn. rewrite N.eqb_refl. reflexivity.
Qed.

Lemma deadlock_streams : forall p program t u n k m s s' d d' x rest rest', t <> u -> n <> s' ->
  entry n = Some (Own d (Some k)) -> entry k = Some (Inside s) -> entry m = Some (Inside s') -> entry s' = Some (Own d' x) ->
  program t = m :: rest -> program u = n :: rest' ->
  exists j st, steps j (start p program) st /\ stuck entry parse unpack st t /\ stuck entry parse unpack st u.
Proof.
  intros p program t u n k m s s' d d' x rest rest' Htu Hns Hn Hk Hm Hs' Ht Hu.
  set (s0 := @fresh V p).
  destruct (go_first (start p program) t m rest) with (s' := s0) (fs' := [@FOwn V s' OInput; FIn s' CCheck]) as (j1 & st1 & R1 & E1 & E2 & E3 & E4 & E5 & E6); auto.
  { cbn [start sh]. unfold call. rewrite Hm. cbn [fresh flag]. one; [apply start_free|]. one. unfold call. rewrite Hs'. cbn [fresh flag app].
    one; [apply start_free|]. one. cbn [fresh flag app]. apply walk_none. }
  destruct (go_first st1 u n rest') with (s' := at_pos s0 d) (fs' := [@FIn V s CLock; FOwn n (ORead p)]) as (j2 & st2 & R2 & F1 & F2 & F3 & F4 & F5 & F6);
    try (rewrite E6 by congruence; cbn; auto; fail).
  { rewrite E1. unfold call. rewrite Hn. cbn [s0 fresh flag].
    pose proof (walk_length (free_for st1 u) s0 n d k [] Hn eq_refl) as Hw. unfold call in Hw. rewrite Hk in Hw. cbn [s0 fresh at_pos flag app] in Hw. apply Hw.
    - intros w Hw'. destruct (Nat.eq_dec w t) as [->|Hwt]; [|rewrite E6 by exact Hwt; reflexivity].
      unfold held. rewrite E2. cbn. destruct (N.eqb_spec s' n); [congruence|reflexivity].
    - intros w Hw'. destruct (Nat.eq_dec w t) as [->|Hwt]; [|rewrite E6 by exact Hwt; reflexivity].
      unfold held. rewrite E2. reflexivity. }
  exists (j1 + j2), st2. split; [eapply runs_trans; eassumption|].
  assert (Et : frames (threads st2 t) = [FOwn s' OInput; FIn s' CCheck]) by (rewrite F6 by congruence; exact E2).
  eapply (stuck_pair st2 t u); try eassumption; try reflexivity.
  - unfold held. rewrite F2. reflexivity.
  - unfold held. rewrite Et. reflexivity.
Qed.

(** one thread sets the flag of an entry when another one looks at it *)
Lemma race : forall p program t u n d rest rest', t <> u -> entry n = Some (Own d None) -> program t = n :: rest -> program u = n :: rest' ->
  exists j st, steps j (start p program) st /\ data_race entry st.
Proof.
  intros p program t u n d rest rest' Htu Hn Ht Hu.
  edestruct (go_first (start p program) t n rest) as (j & st & R & E1 & E2 & E3 & E4 & E5 & E6); auto.
  { cbn [start sh]. unfold call. rewrite Hn. cbn [fresh flag]. one; [apply start_free|]. one. cbn [fresh flag app]. one; [apply start_free|].
    one. one. unfold len_of. rewrite Hn. cbn [app]. one. one. apply walk_none. }
  exists j, st. split; [exact R|]. exists u, t, n. split; [congruence|]. split.
  - unfold about_to_look. rewrite E6 by congruence. cbn. split; [reflexivity|]. left. repeat split; eauto.
  - left. eauto.
Qed.

(** ** Lengths that lead back to themselves *)
Section Cycle.
Variable C : N -> Prop.
Hypothesis HC : forall n, C n -> exists d k, entry n = Some (Own d (Some k)) /\ C k.
Hypothesis HU : forall s q m v, In (m, v) (unpack s q) -> ~ C m.

Fixpoint cok (ab : Prop) (fs : list (@frame V)) : Prop :=
  match fs with
  | [] => True
  | f :: r =>
      match f with
      | FOwn n a =>
          (C n -> match a with OLock | OAgain | OInput | OSeek | OLength _ => True | ORead _ => ab | _ => False end) /\ cok (C n) r
      | FIn k a =>
          match a with
          | CMembers l => forall m v, In (m, v) l -> ~ C m
          | CStore m v l => ~ C m /\ forall m v, In (m, v) l -> ~ C m
          | CFlag m l => ~ C m /\ forall m v, In (m, v) l -> ~ C m
          | _ => True
          end /\ cok False r
      end
  end.
Lemma cok_mono : forall fs (P Q : Prop), (P -> Q) -> cok P fs -> cok Q fs.
Proof.
  intros [|[n a|k a] r] P Q HPQ H; [exact I| |exact H]. destruct H as [H1 H2]. split; [|exact H2]. destruct a; auto.
Qed.
Fixpoint last_is (fs : list (@frame V)) (n : N) : Prop :=
  match fs with [] => False | f :: r => match r with [] => exists a, f = FOwn n a | _ :: _ => last_is r n end end.
Lemma last_is_app : forall r fs n, r <> [] -> last_is (fs ++ r) n <-> last_is r n.
Proof.
  intros r fs n Hr. induction fs as [|f fs IH]; [reflexivity|]. cbn [app last_is]. destruct (fs ++ r) eqn:E; [|exact IH].
  apply app_eq_nil in E. destruct E. contradiction.
Qed.

Record cinv (st : state) : Prop := {
  c_flag : forall n, C n -> flag (sh st) n = false;
  c_stack : forall t, cok False (frames (threads st t));
  c_ask : forall t n, asking (threads st t) = Some n -> C n -> last_is (frames (threads st t)) n;
  c_got : forall t n r, In (n, r) (got (threads st t)) -> ~ C n
}.

Lemma call_cyclic : forall s n, C n -> flag s n = false -> call (V := V) entry s n = [FOwn n OLock].
Proof. intros s n Hn Hf. destruct (HC n Hn) as (d & k & He & _). unfold call. rewrite He, Hf. reflexivity. Qed.

Lemma call_cok : forall s n r, cok False r -> cok False (call (V := V) entry s n ++ r).
Proof.
  intros s n r H. unfold call. destruct (entry n) as [[d l|k]|]; [| |exact H]; destruct (flag s n); try exact H; cbn [app cok]; auto.
  split; [auto|]. eapply cok_mono; [|exact H]. intros [].
Qed.

Lemma cok_advance : forall s f r, (forall n, C n -> flag s n = false) -> cok False (f :: r) -> cok False (fst (advance entry parse unpack s f) ++ r).
Proof.
  intros s f r Hfl H. destruct f as [n a|k a].
  - destruct H as [H1 H2].
    assert (HX : (C n -> False) -> cok False r) by (intros Hn; eapply cok_mono; [exact Hn|exact H2]).
    destruct a; cbn [advance fst app cok] in *; auto.
    + destruct (flag s n) eqn:E; cbn [app cok]; [|auto]. apply HX. intros Hn. rewrite (Hfl n Hn) in E. discriminate.
    + destruct (len_of entry n) as [k|] eqn:El.
      * unfold call. destruct (entry k) as [[d l|k']|] eqn:Ek.
        -- destruct (flag s k) eqn:E; cbn [app cok].
           ++ split; [|exact H2]. intros Hn. destruct (HC n Hn) as (d' & k' & He & Hk). unfold len_of in El. rewrite He in El. injection El as ->.
              rewrite (Hfl k Hk) in E. discriminate.
           ++ split; [auto|]. split; [|exact H2]. intros Hn. destruct (HC n Hn) as (d' & k' & He & Hk). unfold len_of in El. rewrite He in El.
              injection El as ->. exact Hk.
        -- assert (Hnn : C n -> False).
           { intros Hn. destruct (HC n Hn) as (d' & k2 & He & Hk). unfold len_of in El. rewrite He in El. injection El as ->.
             destruct (HC k Hk) as (? & ? & He' & _). congruence. }
           destruct (flag s k); cbn [app cok]; auto.
        -- assert (Hnn : C n -> False).
           { intros Hn. destruct (HC n Hn) as (d' & k2 & He & Hk). unfold len_of in El. rewrite He in El. injection El as ->.
             destruct (HC k Hk) as (? & ? & He' & _). congruence. }
           cbn [app cok]. auto.
      * cbn [app cok]. split; [|exact H2]. intros Hn. destruct (HC n Hn) as (d' & k' & He & Hk). unfold len_of in El. rewrite He in El. discriminate.
  - destruct H as [H1 H2]. destruct a; cbn [advance fst app cok] in *; auto.
    + rewrite <- app_assoc. apply call_cok. cbn [app cok]. auto.
    + destruct (opened s k); auto.
    + split; [|exact H2]. intros m v Hin. eapply HU; eassumption.
    + destruct l as [|[m v] l]; cbn [fst app cok]; auto. split; [|exact H2]. split; [apply (H1 m v); left; reflexivity|].
      intros m' v' Hin. apply (H1 m' v'). right. exact Hin.
    + tauto.
Qed.

Lemma last_advance : forall s f r n, C n -> (forall n, C n -> flag s n = false) -> cok False (f :: r) -> last_is (f :: r) n ->
  last_is (fst (advance entry parse unpack s f) ++ r) n.
Proof.
  intros s f r n Hn Hfl Hc Hl. destruct r as [|g r].
  - rewrite app_nil_r. cbn [last_is] in Hl. destruct Hl as [a ->]. destruct Hc as [Hc _]. specialize (Hc Hn).
    destruct a; try contradiction; cbn [advance fst last_is]; eauto.
    + rewrite (Hfl n Hn). cbn [last_is]. eauto.
    + rewrite last_is_app by discriminate. cbn. eauto.
  - apply last_is_app; [discriminate|]. exact Hl.
Qed.

Lemma cinv_step : forall t st st', cinv st -> step entry parse unpack t st st' -> cinv st'.
Proof.
  intros t st st' Hi Hst. destruct Hst as [f r Hfr Hn|m Hfr Ha|m l Hfr Ha Ht].
  - pose proof (c_stack _ Hi t) as Hs. rewrite Hfr in Hs. constructor; cbn [sh put].
    + intros n Hcn. destruct (adv_flag entry parse unpack (sh st) f n) as [E|[_ [(p & E)|(k & x & E)]]].
      * rewrite E. apply (c_flag _ Hi), Hcn.
      * subst f. destruct Hs as [Hs _]. contradiction (Hs Hcn).
      * subst f. destruct Hs as [[Hs _] _]. contradiction.
    + intros u. destruct (Nat.eq_dec u t) as [->|Hne]; [|rewrite put_other by exact Hne; apply (c_stack _ Hi)].
      rewrite put_same. cbn [frames]. apply cok_advance; [apply (c_flag _ Hi)|exact Hs].
    + intros u n. destruct (Nat.eq_dec u t) as [->|Hne]; [|rewrite put_other by exact Hne; apply (c_ask _ Hi)].
      rewrite put_same. cbn [frames asking]. intros E Hcn. apply last_advance; auto; [apply (c_flag _ Hi)|]. rewrite <- Hfr. apply (c_ask _ Hi); assumption.
    + intros u n x. destruct (Nat.eq_dec u t) as [->|Hne]; [rewrite put_same; apply (c_got _ Hi)|rewrite put_other by exact Hne; apply (c_got _ Hi)].
  - constructor; cbn [sh put].
    + apply (c_flag _ Hi).
    + intros u. destruct (Nat.eq_dec u t) as [->|Hne]; [rewrite put_same; exact I|rewrite put_other by exact Hne; apply (c_stack _ Hi)].
    + intros u n. destruct (Nat.eq_dec u t) as [->|Hne]; [rewrite put_same; discriminate|rewrite put_other by exact Hne; apply (c_ask _ Hi)].
    + intros u n x. destruct (Nat.eq_dec u t) as [->|Hne]; [|rewrite put_other by exact Hne; apply (c_got _ Hi)].
      rewrite put_same. cbn [got]. intros [E|Hin]; [|eapply (c_got _ Hi); exact Hin]. injection E as <- _. intros Hcn.
      pose proof (c_ask _ Hi _ _ Ha Hcn) as Hl. rewrite Hfr in Hl. exact Hl.
  - constructor; cbn [sh put].
    + apply (c_flag _ Hi).
    + intros u. destruct (Nat.eq_dec u t) as [->|Hne]; [|rewrite put_other by exact Hne; apply (c_stack _ Hi)].
      rewrite put_same. cbn [frames]. rewrite <- (app_nil_r (call _ _ _)). apply call_cok. exact I.
    + intros u n. destruct (Nat.eq_dec u t) as [->|Hne]; [|rewrite put_other by exact Hne; apply (c_ask _ Hi)].
      rewrite put_same. cbn [frames asking]. intros E Hcn. injection E as ->. rewrite call_cyclic; [cbn; eauto|exact Hcn|apply (c_flag _ Hi), Hcn].
    + intros u n x. destruct (Nat.eq_dec u t) as [->|Hne]; [rewrite put_same; apply (c_got _ Hi)|rewrite put_other by exact Hne; apply (c_got _ Hi)].
Qed.

Lemma cinv_start : forall p program, cinv (start p program).
Proof. intros. constructor; cbn; auto; try discriminate; try contradiction. Qed.
Lemma cinv_runs : forall k st st', steps k st st' -> cinv st -> cinv st'.
Proof. intros k st st' Hr. induction Hr; intros Hi; [exact Hi|]. eapply IHHr, cinv_step; eassumption. Qed.

Lemma cycle_rounds : forall K (st : state) t n r, (forall l, free_for st t l) -> C n -> (forall n, C n -> flag (sh st) n = false) ->
  frames (threads st t) = FOwn n OLock :: r ->
  exists j st' n' r', steps j st st' /\ (forall l, free_for st' t l) /\ C n' /\ (forall n, C n -> flag (sh st') n = false)
    /\ frames (threads st' t) = FOwn n' OLock :: r' /\ K + List.length r <= List.length r'.
Proof.
  induction K as [|K IH]; intros st t n r Hfree Hn Hfl Hfr.
  - exists 0, st, n, r. split; [constructor|]. repeat split; auto.
  - destruct (HC n Hn) as (d & k & He & Hk).
    pose proof (walk_length (free_for st t) (sh st) n d k r He (Hfl n Hn) (Hfree _) (Hfree _)) as Hw.
    rewrite call_cyclic in Hw by (try exact Hk; apply Hfl; exact Hk). cbn [app] in Hw.
    destruct (go_walk _ _ _ _ _ Hw st t eq_refl Hfr (fun l H => H)) as (j & st1 & R1 & E1 & E2 & E3 & E4 & E5 & E6).
    destruct (IH st1 t k (FOwn n (ORead (pos (sh st))) :: r)) as (j' & st2 & n' & r' & R2 & F1 & F2 & F3 & F4 & F5); auto.
    { intros l u Hu. rewrite E6 by exact Hu. apply Hfree, Hu. }
    { intros m Hm. rewrite E1. cbn [at_pos flag]. apply Hfl, Hm. }
    exists (j + j'), st2, n', r'. split; [eapply runs_trans; eassumption|]. repeat split; auto. cbn [List.length] in F5. lia.
Qed.

Lemma cycle_deep : forall K p t n rest, C n -> exists j st, steps j (start p (only t (n :: rest))) st /\ K <= List.length (frames (threads st t)).
Proof.
  intros K p t n rest Hn. set (st0 := @start V p (only t (n :: rest))).
  assert (Ht : todo (threads st0 t) = n :: rest) by (cbn; unfold only; rewrite Nat.eqb_refl; reflexivity).
  destruct (go_ask st0 t n rest eq_refl eq_refl Ht) as (st1 & R1 & E1 & E2 & E3 & E4 & E5 & E6).
  rewrite call_cyclic in E2 by (try exact Hn; reflexivity).
  destruct (cycle_rounds K st1 t n []) as (j & st2 & n' & r' & R2 & F1 & F2 & F3 & F4 & F5); auto.
  { intros l u Hu. rewrite E6 by exact Hu. reflexivity. }
  { intros m Hm. rewrite E1. reflexivity. }
  exists (1 + j), st2. split; [eapply runs_trans; eassumption|]. rewrite F4. cbn [List.length] in *. lia.
Qed.
End Cycle.

(** ** a Length inside an object stream *)
Lemma walk_members : forall (free : lock -> Prop) k r l s, (forall x, free x) ->
  exists s', walk free s (FIn k (CMembers l) :: r) s' (FIn k CRelease :: r) /\ pos s' = pos s.
Proof.
  intros free k r l s Hfree. revert s. induction l as [|[m v] l IH]; intros s.
  - eexists. split; [one; cbn [app]; apply walk_none|reflexivity].
  - destruct (IH (with_flag (with_slot s m v) m)) as (s' & Hw & Hp). exists s'. split; [|exact Hp].
    one; [apply Hfree|]. one. one. exact Hw.
Qed.

Lemma wrong_place : forall p t n k s d ds rest, n <> s ->
  entry n = Some (Own d (Some k)) -> entry k = Some (Inside s) -> entry s = Some (Own ds None) ->
  exists j st i, steps j (start p (only t (n :: rest))) st /\ got (threads st t) = [(n, Some (i, fst (parse n ds)))].
Proof.
  intros p t n k s d ds rest Hns Hn Hk Hs.
  set (st0 := @start V p (only t (n :: rest))).
  assert (Ht : todo (threads st0 t) = n :: rest) by (cbn; unfold only; rewrite Nat.eqb_refl; reflexivity).
  assert (Hfree : forall x, free_for st0 t x) by (intros; apply start_free).
  assert (Eds : data_of entry s = ds) by (unfold data_of; rewrite Hs; reflexivity).
  assert (HW : exists s', walk (free_for st0 t) (sh st0) (call entry (sh st0) n) s' [] /\ exists i, slot s' n = Some (i, fst (parse n ds))).
  { unfold call at 1. rewrite Hn. cbn [st0 start sh fresh flag].
    pose proof (walk_length (free_for st0 t) (fresh p) n d k [] Hn eq_refl (Hfree _) (Hfree _)) as W1.
    unfold call in W1. rewrite Hk in W1. cbn [fresh at_pos flag app pos] in W1.
    match type of W1 with walk _ _ _ ?x ?y => set (s1 := x) in W1; set (f1 := y) in W1 end.
    assert (W2 : exists s2, walk (free_for st0 t) s1 f1 s2 [FIn s (CMembers (unpack s ds)); FOwn n (ORead p)] /\ pos s2 = ds).
    { eexists. split.
      - subst f1. one; [apply Hfree|]. one. unfold call. rewrite Hs. cbn [s1 flag app]. one; [apply Hfree|]. one. cbn [flag app].
        one; [apply Hfree|]. one. one. unfold len_of. rewrite Hs. cbn [app]. one. one. one. one. one.
        one. cbn [with_flag with_slot at_pos opened]. one; [apply Hfree|]. one. one. cbn [at_pos pos]. rewrite Eds. apply walk_none.
      - reflexivity. }
    destruct W2 as (s2 & W2 & P2).
    destruct (walk_members (free_for st0 t) s [FOwn n (ORead p)] (unpack s ds) s2 Hfree) as (s3 & W3 & P3).
    eexists. split.
    - eapply walk_trans; [exact W1|]. eapply walk_trans; [exact W2|]. eapply walk_trans; [exact W3|].
      one. one. one. one. one. one. apply walk_none.
    - cbn [at_pos with_flag with_slot slot pos]. rewrite N.eqb_refl, P3, P2. eauto. }
  destruct HW as (s' & HW & i & Hsl).
  destruct (go_first st0 t n rest eq_refl eq_refl Ht s' [] HW) as (j & st & R & E1 & E2 & E3 & E4 & E5 & E6).
  eexists (j + 1), _, i. split; [eapply runs_trans; [exact R|econstructor; [eapply step_return; eassumption|constructor]]|].
  rewrite put_same. cbn [got]. rewrite E1, E5, Hsl. reflexivity.
Qed.
End Exec.

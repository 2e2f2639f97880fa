(** Proofs for Props/MarkedResave.v. *)
From Coq Require Import List NArith ZArith Bool Lia String Sorted.
From Coq Require Import List.
From Verif.Model Require Import Base SMap Object Equality Token Parser Xref Header FileWrite Chain Merge Unreferenced Duplicates Update Rebuild Conforming Save StandardSave.
From Verif.Spec Require Import Strings Grammar Xref FileWrite Chain Merge Unreferenced Duplicates Update Conforming Written Save StandardSave.
From Verif.Spec Require Watermark MarkedSave StreamFile.
From Verif.Spec Require Import MarkedResave.
From Verif.Proof Require Import Tac Strings SMap FileWrite Update Conforming Written Unreferenced Save StandardSave.
From Verif.Proof Require Import Duplicates StreamObj.
Import ListNotations.
Local Open Scope N_scope.

Lemma reshaped_same : forall o o', reshaped o o' -> (forall n g, ~ mentions n g o) -> o' = o.
Proof.
  assert (EE : forall l, Forall (fun e : bytes * obj => forall o', reshaped (snd e) o' -> (forall n g, ~ mentions n g (snd e)) -> o' = snd e) l ->
    (forall key o n g, In (key, o) l -> ~ mentions n g o) -> forall l', Forall2 (fun x y => fst x = fst y /\ reshaped (snd x) (snd y)) l l' -> l' = l).
  { induction 1 as [|[k x] l Hx Hl IHl]; intros Hm l' F; inversion F as [|? [k' y] ? w' (F1 & F2) F3]; subst; [reflexivity|]. cbn [fst snd] in *. subst k'.
    f_equal; [f_equal; apply Hx; [exact F2|]; intros n g; apply (Hm k x); left; reflexivity|apply IHl; [|exact F3]]. intros key o n g Hin. apply (Hm key). right. exact Hin. }
  induction o as [l IH|l IH|l d IH|o Ho] using obj_induction; intros o' H Hm.
  - inversion H as [? F| |? l' F| |]; subst; [destruct F|]. f_equal. clear H. revert l' F.
    induction IH as [|x l Hx Hl IHl]; intros l' F; inversion F as [|? y ? w' F1 F2]; subst; [reflexivity|].
    f_equal; [apply Hx; [exact F1|]; intros n g M; apply (Hm n g); eapply Spec.Unreferenced.m_arr; [left; reflexivity|exact M]|].
    apply IHl; [|exact F2]. intros n g M. inversion M as [|? o Hin Mo| |]; subst. apply (Hm n g). eapply Spec.Unreferenced.m_arr; [right; exact Hin|exact Mo].
  - inversion H as [? F| | |? l' F|]; subst; [destruct F|]. f_equal. apply (EE l IH); [|exact F]. intros key o n g Hin M. apply (Hm n g). eapply Spec.Unreferenced.m_dict; eassumption.
  - inversion H as [? F| | | |? l' ? F]; subst; [destruct F|]. f_equal. apply (EE l IH); [|exact F]. intros key o n g Hin M. apply (Hm n g). eapply Spec.Unreferenced.m_stream; eassumption.
  - inversion H; subst; try destruct Ho; [reflexivity|]. exfalso. eapply Hm. apply Spec.Unreferenced.m_ref.
Qed.
Lemma reshaped_find : forall key m m', Forall2 (fun x y => fst x = fst y /\ reshaped (snd x) (snd y)) m m' ->
  match sm_find key m, sm_find key m' with Some a, Some b => reshaped a b | None, None => True | _, _ => False end.
Proof.
  intros key m m' F. induction F as [|[k a] [k' b] m m' (E & R) F IH]; [exact I|]. cbn [fst snd] in *. subst k'. cbn [sm_find].
  destruct (buffer_ltb key k); [exact I|]. destruct (buffer_ltb k key); [exact IH|exact R].
Qed.
Lemma reshaped_filters : forall o m' d, reshaped o (OStream m' d) -> exists m, o = OStream m d /\ (own_filters m -> StreamFile.same_filters m m').
Proof.
  intros o m' d H. inversion H as [? F| | | |m ? ? F]; subst; [destruct F|]. exists m. split; [reflexivity|]. intros Hown.
  assert (A : forall key, In key [str "Filter"; str "DecodeParms"] -> sm_find key m' = sm_find key m).
  { intros key Hk. assert (X := reshaped_find key m m' F). destruct (sm_find key m) as [a|] eqn:Ea, (sm_find key m') as [b|]; try contradiction; [|reflexivity].
    f_equal. apply reshaped_same; [exact X|]. intros n g. apply (Hown key a n g Hk Ea). }
  split; apply A; [left; reflexivity|right; left; reflexivity].
Qed.

(** the document that is marked has the objects of the items *)
Lemma object_held : forall items, (forall e o, In (e, o) items -> xdata e = KFree 0 \/ exists offset, xdata e = KUsed offset true) ->
  forall n g, MarkedSave.object_of items n g = held items n g.
Proof.
  intros items H n g. unfold MarkedSave.object_of, held.
  replace (find (is_at n g) items) with (find (fun p : xentry * obj => match xdata (fst p) with KUsed _ true => (xnum (fst p) =? n) && (xgen (fst p) =? g) | _ => false end) items); [reflexivity|].
  induction items as [|[e o] items IH]; [reflexivity|]. cbn [find fst]. rewrite IH by (intros e' o' Hin; apply (H e' o'); right; exact Hin).
  unfold is_at, entry_in_use. cbn [fst]. destruct (H e o (or_introl eq_refl)) as [E|(off & E)]; rewrite E; [rewrite andb_false_r|rewrite andb_true_r]; reflexivity.
Qed.
Lemma held_storable : forall items, Forall (fun p => entry_saveable (fst p) /\ (used_in_use (fst p) -> storable (snd p))) items ->
  (forall e o, In (e, o) items -> xdata e = KFree 0 \/ exists offset, xdata e = KUsed offset true) -> forall n g, storable (held items n g).
Proof.
  intros items F H n g. destruct (held_cases items n g) as [(e & A & _ & _ & D)|(E & _)]; [|rewrite E; apply st_direct; constructor].
  rewrite Forall_forall in F. apply (F _ A). cbn [fst]. unfold used_in_use. unfold entry_in_use in D. destruct (H _ _ A) as [E|(off & E)]; rewrite E in *; [discriminate D|exact I].
Qed.

(** the page tree of a document that looks the same *)
Lemma seen_same : forall real f f' a b root key p, same_document real f f' a b -> seen_at f a = ODict root -> writable (ODict root) -> all_bytes key ->
  sm_find key root = Some p -> (forall m, seen_at f' b = ODict m -> writable (ODict m)) ->
  exists root' p', seen_at f' b = ODict root' /\ sm_find key root' = Some p' /\ same_document real f f' p p'.
Proof.
  intros real f f' a b root key p H E W Hb Hp W'. assert (Hin : In (key, p) root) by (destruct (writable_parts _ W) as (A & B & _); apply sm_find_in; assumption).
  assert (D : forall k, exists root' p', seen_at f' b = ODict root' /\ In (key, p') root' /\ resembles real f f' k p p').
  { intros k. assert (A := H (S k)). cbn [resembles] in A. rewrite E in A. inversion A as [| | |? ? v0 T0 _|? ? N0 _ _| |? m' (D1 & _)|]; subst; [discriminate T0|destruct N0|].
    destruct (D1 key p Hin ltac:(intros [])) as (p' & Hin' & R). exists m', p'. auto. }
  destruct (D O) as (root' & p' & E' & Hin' & _). assert (Wr := W' root' E'). destruct (writable_parts _ Wr) as (A1 & A2 & _).
  exists root', p'. split; [exact E'|]. split; [apply sm_find_in; assumption|]. intros k. destruct (D k) as (r2 & p2 & E2 & Hin2 & R).
  assert (r2 = root') by congruence. subst r2. apply sm_find_in in Hin'; [|assumption..]. apply sm_find_in in Hin2; [|assumption..]. assert (p2 = p') by congruence. subst p2. exact R.
Qed.
Lemma seen_arr : forall real f f' a b l, same_document real f f' a b -> seen_at f a = OArr l -> exists l', seen_at f' b = OArr l'.
Proof.
  intros real f f' a b l H E. assert (A := H 1%nat). cbn [resembles] in A. rewrite E in A. inversion A as [| | |? ? v0 T0 _|? ? N0 _ _|? l' _| |]; subst; [discriminate T0|destruct N0|]. exists l'. reflexivity.
Qed.
Lemma seen_split : forall f a o, seen_at f a = o -> (forall n g, o <> ORef n g) -> a = o \/ exists n g, a = ORef n g /\ f n g = o.
Proof. intros f a o E H. destruct a; cbn [seen_at] in E; try (left; exact E). right. eexists _, _. split; [reflexivity|exact E]. Qed.
Lemma split_seen : forall f a o, (forall n g, o <> ORef n g) -> a = o \/ (exists n g, a = ORef n g /\ f n g = o) -> seen_at f a = o.
Proof. intros f a o H [->|(n & g & -> & E)]; [|exact E]. destruct o; try reflexivity. exfalso. eapply H. reflexivity. Qed.
Lemma seen_writable : forall f a m, writable a -> (forall n g, mentions n g a -> storable (f n g)) -> seen_at f a = ODict m -> writable (ODict m).
Proof.
  intros f a m W H E. destruct a; cbn [seen_at] in E; try (rewrite <- E; exact W). assert (S := H _ _ (Spec.Unreferenced.m_ref num gen)). rewrite E in S. inversion S; subst. assumption.
Qed.
Lemma entry_writable : forall m key v, writable (ODict m) -> all_bytes key -> sm_find key m = Some v -> writable v /\ In (key, v) m.
Proof.
  intros m key v W Hb E. destruct (writable_parts _ W) as (A & B & C). apply sm_find_in in E; [|assumption..]. split; [|exact E].
  rewrite Forall_forall in C. exact (proj1 (C _ E)).
Qed.
Lemma kids_same : forall real f f' t t' kids, writable (ODict t) -> (forall n g, live f (ODict t) n g -> storable (f n g)) ->
  writable (ODict t') -> (forall n g, storable (f' n g)) -> same_entries real f f' t t' -> Watermark.root_kids f t kids ->
  exists kids', Watermark.root_kids f' t' kids'.
Proof.
  intros real f f' t t' kids W L W' L' Hsame (r & root & p & pages & k & Er & Tr & Ep & Tp & Ek & Tk).
  assert (B : forall s, all_bytes (str s)) by (intros; apply str_bytes).
  assert (H := Hsame (str "Root") ltac:(left; reflexivity)). rewrite Er in H. destruct (sm_find (str "Root") t') as [r'|] eqn:Er'; [|contradiction].
  apply split_seen in Tr; [|discriminate]. apply split_seen in Tp; [|discriminate]. apply split_seen in Tk; [|discriminate].
  destruct (entry_writable _ _ _ W (B _) Er) as (Wr & Ir). destruct (entry_writable _ _ _ W' (B _) Er') as (Wr' & _).
  assert (Lr : forall n g, mentions n g r -> live f (ODict t) n g) by (intros n g M; apply live_trailer; eapply Spec.Unreferenced.m_dict; eassumption).
  assert (Wroot : writable (ODict root)) by (apply (seen_writable f r root Wr); [intros n g M; apply L, Lr, M|exact Tr]).
  destruct (seen_same real f f' r r' root (str "Pages") p H Tr Wroot (B _) Ep) as (root' & p' & Eroot' & Ep' & Hp).
  { intros m E. apply (seen_writable f' r' m Wr'); [intros; apply L'|exact E]. }
  assert (Wroot' : writable (ODict root')) by (apply (seen_writable f' r' root' Wr'); [intros; apply L'|exact Eroot']).
  destruct (entry_writable _ _ _ Wroot (B _) Ep) as (Wp & Ip). destruct (entry_writable _ _ _ Wroot' (B _) Ep') as (Wp' & _).
  assert (Lp : forall n g, mentions n g p -> live f (ODict t) n g).
  { intros n g M. assert (Mr : mentions n g (seen_at f r)) by (rewrite Tr; eapply Spec.Unreferenced.m_dict; eassumption). destruct r; cbn [seen_at] in Mr; try (apply Lr; exact Mr). eapply live_step; [apply Lr, Spec.Unreferenced.m_ref|exact Mr]. }
  assert (Wpages : writable (ODict pages)) by (apply (seen_writable f p pages Wp); [intros n g M; apply L, Lp, M|exact Tp]).
  destruct (seen_same real f f' p p' pages (str "Kids") k Hp Tp Wpages (B _) Ek) as (pages' & k' & Epages' & Ek' & Hk).
  { intros m E. apply (seen_writable f' p' m Wp'); [intros; apply L'|exact E]. }
  destruct (seen_arr _ _ _ _ _ _ Hk Tk) as (kids' & Ekids').
  exists kids', r', root', p', pages', k'. split; [exact Er'|]. split; [apply seen_split; [exact Eroot'|discriminate]|]. split; [exact Ep'|]. split; [apply seen_split; [exact Epages'|discriminate]|].
  split; [exact Ek'|apply seen_split; [exact Ekids'|discriminate]].
Qed.

(** ... and of one without a page tree *)
Lemma seen_none : forall real f f' a b root, same_document real f f' a b -> seen_at f a = ODict root -> writable (ODict root) ->
  (forall m, seen_at f' b = ODict m -> writable (ODict m)) ->
  exists root', seen_at f' b = ODict root' /\ forall key, all_bytes key -> sm_find key root = None -> sm_find key root' = None.
Proof.
  intros real f f' a b root H E W W'. assert (A := H 1%nat). cbn [resembles] in A. rewrite E in A.
  inversion A as [| | |? ? v0 T0 _|? ? N0 _ _| |? m' (_ & D2)|]; subst; [discriminate T0|destruct N0|]. exists m'. split; [reflexivity|]. intros key Hb En.
  destruct (sm_find key m') as [x|] eqn:Ex; [|reflexivity]. assert (Wm := W' m' ltac:(symmetry; assumption)). destruct (entry_writable _ _ _ Wm Hb Ex) as (_ & Hin).
  destruct (D2 key x Hin ltac:(intros [])) as (y & Hy & _). destruct (writable_parts _ W) as (A1 & A2 & _). apply sm_find_in in Hy; [|assumption..]. congruence.
Qed.
Lemma pageless_same : forall real f f' t t', writable (ODict t) -> (forall n g, live f (ODict t) n g -> storable (f n g)) ->
  writable (ODict t') -> (forall n g, storable (f' n g)) -> same_entries real f f' t t' -> MarkedSave.pageless f t -> MarkedSave.pageless f' t'.
Proof.
  intros real f f' t t' W L W' L' Hsame Hpg.
  assert (B : forall s, all_bytes (str s)) by (intros; apply str_bytes).
  assert (H := Hsame (str "Root") ltac:(left; reflexivity)).
  destruct Hpg as [Er|(r & root & Er & Tr & Hpg)]; rewrite Er in H; (destruct (sm_find (str "Root") t') as [r'|] eqn:Er'; [|try contradiction]); [contradiction|left; exact Er'|].
  right. apply split_seen in Tr; [|discriminate].
  destruct (entry_writable _ _ _ W (B _) Er) as (Wr & Ir). destruct (entry_writable _ _ _ W' (B _) Er') as (Wr' & _).
  assert (Lr : forall n g, mentions n g r -> live f (ODict t) n g) by (intros n g M; apply live_trailer; eapply Spec.Unreferenced.m_dict; eassumption).
  assert (Wroot : writable (ODict root)) by (apply (seen_writable f r root Wr); [intros n g M; apply L, Lr, M|exact Tr]).
  assert (Wd : forall m, seen_at f' r' = ODict m -> writable (ODict m)) by (intros m E; apply (seen_writable f' r' m Wr'); [intros; apply L'|exact E]).
  destruct Hpg as [En|(p & pages & Ep & Tp & En)].
  - destruct (seen_none real f f' r r' root H Tr Wroot Wd) as (root' & Eroot' & Hno).
    exists r', root'. split; [exact Er'|]. split; [apply seen_split; [exact Eroot'|discriminate]|]. left. apply Hno; [apply B|exact En].
  - apply split_seen in Tp; [|discriminate].
    destruct (seen_same real f f' r r' root (str "Pages") p H Tr Wroot (B _) Ep Wd) as (root' & p' & Eroot' & Ep' & Hp).
    assert (Wroot' := Wd _ Eroot'). destruct (entry_writable _ _ _ Wroot (B _) Ep) as (Wp & Ip). destruct (entry_writable _ _ _ Wroot' (B _) Ep') as (Wp' & _).
    assert (Lp : forall n g, mentions n g p -> live f (ODict t) n g).
    { intros n g M. assert (Mr : mentions n g (seen_at f r)) by (rewrite Tr; eapply Spec.Unreferenced.m_dict; eassumption). destruct r; cbn [seen_at] in Mr; try (apply Lr; exact Mr). eapply live_step; [apply Lr, Spec.Unreferenced.m_ref|exact Mr]. }
    assert (Wpages : writable (ODict pages)) by (apply (seen_writable f p pages Wp); [intros n g M; apply L, Lp, M|exact Tp]).
    destruct (seen_none real f f' p p' pages Hp Tp Wpages) as (pages' & Epages' & Hno).
    { intros m E. apply (seen_writable f' p' m Wp'); [intros; apply L'|exact E]. }
    exists r', root'. split; [exact Er'|]. split; [apply seen_split; [exact Eroot'|discriminate]|]. right.
    exists p', pages'. split; [exact Ep'|]. split; [apply seen_split; [exact Epages'|discriminate]|]. apply Hno; [apply B|exact En].
Qed.
(** A catalog that is no dictionary stays none. *)
Lemma no_dictionary_same : forall real f f' a b, same_document real f f' a b -> MarkedSave.no_dictionary f a -> MarkedSave.no_dictionary f' b.
Proof.
  intros real f f' a b H N m E. apply split_seen in E; [|discriminate]. assert (A := H 1%nat). cbn [resembles] in A. rewrite E in A.
  inversion A as [| | |? ? v0 _ T0|? ? _ N0 _| |m0 ? _ E0|]; subst; [discriminate T0|destruct N0|]. apply (N m0). apply seen_split; [symmetry; assumption|discriminate].
Qed.
Lemma malformed_same : forall real f f' t t', writable (ODict t) -> (forall n g, live f (ODict t) n g -> storable (f n g)) ->
  writable (ODict t') -> (forall n g, storable (f' n g)) -> same_entries real f f' t t' -> MarkedSave.malformed f t -> MarkedSave.malformed f' t'.
Proof.
  intros real f f' t t' W L W' L' Hsame (r & Er & Hm).
  assert (B : forall s, all_bytes (str s)) by (intros; apply str_bytes).
  assert (H := Hsame (str "Root") ltac:(left; reflexivity)). rewrite Er in H. destruct (sm_find (str "Root") t') as [r'|] eqn:Er'; [|contradiction].
  exists r'. split; [exact Er'|]. destruct Hm as [N|(root & p & Tr & Ep & N)]; [left; eapply no_dictionary_same; eassumption|right].
  apply split_seen in Tr; [|discriminate].
  destruct (entry_writable _ _ _ W (B _) Er) as (Wr & Ir). destruct (entry_writable _ _ _ W' (B _) Er') as (Wr' & _).
  assert (Lr : forall n g, mentions n g r -> live f (ODict t) n g) by (intros n g M; apply live_trailer; eapply Spec.Unreferenced.m_dict; eassumption).
  assert (Wroot : writable (ODict root)) by (apply (seen_writable f r root Wr); [intros n g M; apply L, Lr, M|exact Tr]).
  destruct (seen_same real f f' r r' root (str "Pages") p H Tr Wroot (B _) Ep) as (root' & p' & Eroot' & Ep' & Hp).
  { intros m E. apply (seen_writable f' r' m Wr'); [intros; apply L'|exact E]. }
  exists root', p'. split; [apply seen_split; [exact Eroot'|discriminate]|]. split; [exact Ep'|]. eapply no_dictionary_same; eassumption.
Qed.

(** Facts about the marks set when a file is opened. *)
From Coq Require Import List NArith ZArith Bool Lia String.
From Coq Require Import List.
From Verif.Model Require Import Base SMap Object Encryption Exempt.
From Verif.Spec Require Import Exempt.
From Verif.Proof Require Import Tac.
Import ListNotations.
Local Open Scope N_scope.

Lemma beq_true : forall a b, beq a b = true <-> a = b.
Proof. intros a b. unfold beq. destruct (list_eq_dec N.eq_dec a b) as [E|E]; split; intros H; congruence. Qed.

Lemma ref_dec : forall o, is_ref o \/ ~ is_ref o.
Proof. intros o. destruct o; try (right; intros (? & ? & H); discriminate). left. eexists _, _. reflexivity. Qed.

Lemma fetch_ok : forall e f n g o, fetch e f n g = Ok o -> f_object f n g = Ok o.
Proof. intros e f n g o H. unfold fetch in H. destruct (e && f_packed f n g); [|exact H]. apply rbind_ok in H. now destruct H as (k & _ & H). Qed.

Lemma follow_points : forall fuel e f vis l l', follow fuel e f vis l = Ok l' -> points f l l'.
Proof.
  induction fuel as [|k IH]; intros e f vis [s o] l' H.
  - destruct o; cbn [follow snd] in H; try (injection H as <-; apply points_here; intros (? & ? & E); discriminate).
    destruct (existsb _ vis); discriminate.
  - destruct o; cbn [follow snd] in H; try (injection H as <-; apply points_here; intros (? & ? & E); discriminate).
    destruct (existsb _ vis); [discriminate|]. apply rbind_ok in H. destruct H as (o & Ho & H). apply fetch_ok in Ho.
    eapply points_ref; [exact Ho|]. eapply IH; exact H.
Qed.

Lemma points_det : forall f l a, points f l a -> forall b, points f l b -> a = b.
Proof.
  induction 1 as [s o Ho|s n g o l Hn H IH]; intros b Hb; inversion Hb; subst; try reflexivity.
  - destruct Ho. eexists _, _. reflexivity.
  - match goal with H : ~ is_ref _ |- _ => destruct H; eexists _, _; reflexivity end.
  - apply IH. congruence.
Qed.
Lemma points_end : forall f l a, points f l a -> ~ is_ref (snd a).
Proof. induction 1; assumption. Qed.

Lemma entry_det : forall l k a b, has_entry l k a -> has_entry l k b -> a = b.
Proof. intros l k a b (d & o & H1 & H2 & ->) (d' & o' & H1' & H2' & ->). congruence. Qed.
Lemma value_det : forall f l k a b, value_of f l k a -> value_of f l k b -> a = b.
Proof. intros f l k a b (e & He & Ha) (e' & He' & Hb). rewrite (entry_det _ _ _ _ He' He) in Hb. eapply points_det; eassumption. Qed.
Lemma trailer_det : forall f i a b, trailer f i a -> trailer f i b -> a = b.
Proof. intros f i a b (x & d & H & ->) (y & d' & H' & ->). congruence. Qed.
Lemma field_list_det : forall f a b, field_list f a -> field_list f b -> a = b.
Proof.
  intros f a b (t & r & m & H1 & H2 & H3 & H4) (t' & r' & m' & H1' & H2' & H3' & H4').
  rewrite (trailer_det _ _ _ _ H1' H1) in H2'. rewrite (value_det _ _ _ _ _ H2' H2) in H3'. rewrite (value_det _ _ _ _ _ H3' H3) in H4'.
  exact (value_det _ _ _ _ _ H4 H4').
Qed.

Lemma entry_intro : forall l k o, sm_find k (entries (snd l)) = Some o -> has_entry l k (child (fst l) (SKey k), o).
Proof.
  intros [s o'] k o H. cbn [snd fst] in *. destruct o'; cbn [entries] in H; try discriminate. eexists _, _. split; [reflexivity|]. split; [exact H|reflexivity].
Qed.
Lemma entry_contains : forall l k e, has_entry l k e -> sm_contains k (entries (snd l)) = true /\ sm_find k (entries (snd l)) = Some (snd e).
Proof. intros l k e (d & o & H1 & H2 & ->). rewrite H1. cbn [entries snd]. unfold sm_contains. rewrite H2. split; reflexivity. Qed.

Lemma find_as_value : forall kind fuel e f l k v, find_as kind fuel e f (fst l) (entries (snd l)) k = Ok v -> value_of f l k v /\ kind (snd v) = true.
Proof.
  intros kind fuel e f l k v H. unfold find_as in H. destruct (sm_find k (entries (snd l))) as [o|] eqn:E; [|discriminate].
  apply rbind_ok in H. destruct H as (w & Hw & H). destruct (kind (snd w)) eqn:Ek; [|discriminate]. injection H as <-. split; [|exact Ek].
  eexists. split; [apply entry_intro; exact E|]. eapply follow_points. exact Hw.
Qed.

(** the contents that are found for an item *)
Definition found_at (f : source) (x : loc) (c : loc) : Prop :=
  exists l v s b, points f x l /\ dictionary l /\ value_of f l (str "FT") (s, OName (str "Sig")) /\ value_of f l (str "V") v /\
    value_of f v (str "Contents") c /\ snd c = OHex b.

Lemma contents_found : forall fuel e f x s, signature_contents fuel e f x = Ok (Some s) -> exists c, found_at f x c /\ fst c = s.
Proof.
  intros fuel e f x s H. unfold signature_contents in H. apply rbind_ok in H. destruct H as (l & Hl & H). apply follow_points in Hl.
  destruct (is_dictionary (snd l)) eqn:Ed; cbn [negb] in H; [|discriminate].
  destruct (sm_contains (str "FT") (entries (snd l))); cbn [negb] in H; [|discriminate].
  apply rbind_ok in H. destruct H as (ft & Hft & H). apply find_as_value in Hft. destruct Hft as [Hft Kft].
  match type of H with (if negb ?b then _ else _) = _ => destruct b eqn:En end; cbn [negb] in H; [|discriminate].
  destruct (sm_contains (str "V") (entries (snd l))); cbn [negb] in H; [|discriminate].
  apply rbind_ok in H. destruct H as (v & Hv & H). apply find_as_value in Hv. destruct Hv as [Hv Kv].
  destruct (sm_contains (str "Contents") (entries (snd v))); cbn [negb] in H; [|discriminate].
  apply rbind_ok in H. destruct H as (c & Hc & H). apply find_as_value in Hc. destruct Hc as [Hc Kc]. injection H as <-.
  exists c. split; [|reflexivity]. destruct ft as [fs fo]. cbn [snd] in *. destruct fo; try discriminate. apply beq_true in En. subst n.
  destruct (snd c) eqn:Ec; try discriminate. exists l, v, fs, v0. split; [exact Hl|]. split; [destruct (snd l) eqn:El; try discriminate; eexists; exact El|].
  split; [exact Hft|]. split; [exact Hv|]. split; [exact Hc|exact Ec].
Qed.

Lemma value_contains : forall f l k v, value_of f l k v -> sm_contains k (entries (snd l)) = true.
Proof. intros f l k v (e & He & _). now apply entry_contains in He. Qed.
Lemma not_found_entry : forall l k, sm_contains k (entries (snd l)) = false -> forall e, ~ has_entry l k e.
Proof. intros l k H e He. apply entry_contains in He. destruct He as [He _]. congruence. Qed.

(** an item whose signature is there: either its contents are marked, or opening fails *)
Lemma contents_complete : forall fuel e f x r l v c s, signature_contents fuel e f x = Ok r -> points f x l -> dictionary l ->
  value_of f l (str "FT") (s, OName (str "Sig")) -> value_of f l (str "V") v ->
  dictionary v /\ (value_of f v (str "Contents") c -> r = Some (fst c) /\ is_hex (snd c) = true).
Proof.
  intros fuel e f x r l v c s H Hl Hd Hft Hv. unfold signature_contents in H. apply rbind_ok in H. destruct H as (l' & Hl' & H). apply follow_points in Hl'.
  rewrite <- (points_det _ _ _ Hl _ Hl') in H. assert (Ed : is_dictionary (snd l) = true) by (destruct Hd as [d ->]; reflexivity). rewrite Ed in H. cbn [negb] in H.
  rewrite (value_contains _ _ _ _ Hft) in H. cbn [negb] in H. apply rbind_ok in H. destruct H as (ft & Hft' & H). apply find_as_value in Hft'. destruct Hft' as [Hft' _].
  rewrite (value_det _ _ _ _ _ Hft' Hft) in H. cbn [snd] in H. assert (Eb : beq (str "Sig") (str "Sig") = true) by (apply beq_true; reflexivity). rewrite Eb in H. cbn [negb] in H.
  rewrite (value_contains _ _ _ _ Hv) in H. cbn [negb] in H. apply rbind_ok in H. destruct H as (v' & Hv' & H). apply find_as_value in Hv'. destruct Hv' as [Hv' Kv].
  rewrite (value_det _ _ _ _ _ Hv' Hv) in H, Kv. split; [destruct (snd v) eqn:Ev; try discriminate; eexists; exact Ev|]. intros Hc.
  rewrite (value_contains _ _ _ _ Hc) in H. cbn [negb] in H. apply rbind_ok in H. destruct H as (c' & Hc' & H). apply find_as_value in Hc'. destruct Hc' as [Hc' Kc].
  rewrite (value_det _ _ _ _ _ Hc' Hc) in H, Kc. split; [congruence|exact Kc].
Qed.

Lemma fields_marks : forall fuel e f items st st', exempt_fields fuel e f items st = (st', Ok tt) ->
  st_ready st' = st_ready st /\ st_dictionary st' = st_dictionary st /\
  (forall m, In m (st_marks st') <-> In m (st_marks st) \/ exists x, In x items /\ signature_contents fuel e f x = Ok (Some m)) /\
  (forall x, In x items -> exists r, signature_contents fuel e f x = Ok r).
Proof.
  intros fuel e f. induction items as [|x t IH]; intros st st' H; cbn [exempt_fields] in H.
  - apply pair_equal_spec in H. destruct H as [-> _]. split; [reflexivity|]. split; [reflexivity|]. split; [|intros x []].
    intros m. split; [now left|intros [H|(x & [] & _)]; exact H].
  - destruct (signature_contents fuel e f x) as [[s|]|ex| |] eqn:E; try (apply pair_equal_spec in H; destruct H as [_ H]; discriminate).
    + apply IH in H. destruct H as (H1 & H2 & H3 & H4). split; [exact H1|]. split; [exact H2|]. split.
      * intros m. rewrite H3. cbn [add_mark st_marks]. split.
        -- intros [[->|H]|(y & Hy & Ey)]; [right; exists x; split; [left; reflexivity|exact E]|left; exact H|right; exists y; split; [right; exact Hy|exact Ey]].
        -- intros [H|(y & [->|Hy] & Ey)]; [left; right; exact H|left; left; congruence|right; exists y; split; assumption].
      * intros y [->|Hy]; [eexists; exact E|apply H4; exact Hy].
    + apply IH in H. destruct H as (H1 & H2 & H3 & H4). split; [exact H1|]. split; [exact H2|]. split.
      * intros m. rewrite H3. split.
        -- intros [H|(y & Hy & Ey)]; [left; exact H|right; exists y; split; [right; exact Hy|exact Ey]].
        -- intros [H|(y & [->|Hy] & Ey)]; [left; exact H|congruence|right; exists y; split; assumption].
      * intros y [->|Hy]; [eexists; exact E|apply H4; exact Hy].
Qed.

Lemma elements_from_in : forall s a i x, In x (elements_from s i a) <-> exists j o, nth_error a j = Some o /\ x = (child s (SIndex (i + j)), o).
Proof.
  intros s. induction a as [|y a IH]; intros i x; cbn [elements_from].
  - split; [intros []|intros (j & o & H & _); destruct j; discriminate].
  - split.
    + intros [<-|H]; [exists 0%nat, y; split; [reflexivity|rewrite Nat.add_0_r; reflexivity]|].
      apply IH in H. destruct H as (j & o & Hj & ->). exists (S j), o. split; [exact Hj|]. rewrite Nat.add_succ_r. reflexivity.
    + intros (j & o & Hj & ->). destruct j as [|j]; cbn [nth_error] in Hj.
      * left. injection Hj as <-. rewrite Nat.add_0_r. reflexivity.
      * right. apply IH. exists j, o. split; [exact Hj|]. rewrite Nat.add_succ_r. reflexivity.
Qed.
Lemma elements_in : forall l x, In x (elements l) <-> element l x.
Proof.
  intros [s o] x. unfold elements, element. cbn [fst snd]. split.
  - destruct o; try (intros []). intros H. apply elements_from_in in H. destruct H as (j & o & Hj & ->). eexists _, j, o. split; [reflexivity|]. split; [exact Hj|reflexivity].
  - intros (a & i & u & -> & Hi & ->). apply elements_from_in. exists i, u. split; [exact Hi|reflexivity].
Qed.

Lemma first_trailer : forall f b d rest, f_sections f = (b, d) :: rest -> trailer f 0 ((PSection 0, []), ODict d).
Proof. intros f b d rest H. exists b, d. rewrite H. split; reflexivity. Qed.

Lemma form_items : forall fuel e f items, form_fields fuel e f = Ok items ->
  forall x, In x items <-> exists fs, field_list f fs /\ element fs x.
Proof.
  intros fuel e f items H x. unfold form_fields in H. destruct (f_sections f) as [|[b d] rest] eqn:Es; [discriminate|].
  assert (Ht := first_trailer _ _ _ _ Es). set (t := ((PSection 0, []), ODict d) : loc) in *.
  assert (Hfs : forall fs, field_list f fs -> exists root form, value_of f t (str "Root") root /\ value_of f root (str "AcroForm") form /\ value_of f form (str "Fields") fs).
  { intros fs (t' & root & form & H1 & H2 & H3 & H4). rewrite (trailer_det _ _ _ _ H1 Ht) in H2. exists root, form. auto. }
  destruct (sm_find (str "Root") d) as [r|] eqn:Er.
  2:{ injection H as <-. split; [intros []|intros (fs & Hf & _)]. apply Hfs in Hf. destruct Hf as (root & form & (en & He & _) & _). apply entry_contains in He.
      destruct He as [_ He]. cbn [t snd entries] in He. congruence. }
  apply rbind_ok in H. destruct H as (root & Hr & H). apply follow_points in Hr.
  assert (Vr : value_of f t (str "Root") root). { eexists. split; [apply (entry_intro t); exact Er|exact Hr]. }
  assert (Hfs' : forall fs, field_list f fs -> exists form, value_of f root (str "AcroForm") form /\ value_of f form (str "Fields") fs).
  { intros fs Hf. apply Hfs in Hf. destruct Hf as (root' & form & H1 & H2 & H3). rewrite (value_det _ _ _ _ _ H1 Vr) in H2. exists form. auto. }
  destruct (is_dictionary (snd root)) eqn:Ed; cbn [negb] in H.
  2:{ injection H as <-. split; [intros []|intros (fs & Hf & _)]. apply Hfs' in Hf. destruct Hf as (form & (en & (d' & o & H1 & _) & _) & _). rewrite H1 in Ed. discriminate. }
  destruct (sm_contains (str "AcroForm") (entries (snd root))) eqn:Ea; cbn [negb] in H.
  2:{ injection H as <-. split; [intros []|intros (fs & Hf & _)]. apply Hfs' in Hf. destruct Hf as (form & Hv & _). apply value_contains in Hv. congruence. }
  apply rbind_ok in H. destruct H as (form & Hf & H). apply find_as_value in Hf. destruct Hf as [Vf _].
  assert (Hfs2 : forall fs, field_list f fs -> value_of f form (str "Fields") fs).
  { intros fs Hf. apply Hfs' in Hf. destruct Hf as (form' & H2 & H3). rewrite (value_det _ _ _ _ _ H2 Vf) in H3. exact H3. }
  destruct (sm_contains (str "Fields") (entries (snd form))) eqn:Ef; cbn [negb] in H.
  2:{ injection H as <-. split; [intros []|intros (fs & Hf & _)]. apply Hfs2 in Hf. apply value_contains in Hf. congruence. }
  apply rbind_ok in H. destruct H as (fl & Hfl & H). apply find_as_value in Hfl. destruct Hfl as [Vfl _]. injection H as <-. rewrite elements_in.
  split.
  - intros Hx. exists fl. split; [|exact Hx]. exists t, root, form. auto.
  - intros (fs & Hf & Hx). apply Hfs2 in Hf. rewrite (value_det _ _ _ _ _ Hf Vfl) in Hx. exact Hx.
Qed.

Lemma streams_marks : forall l i st, st_ready (exempt_streams i l st) = st_ready st /\ st_dictionary (exempt_streams i l st) = st_dictionary st /\
  forall m, In m (st_marks (exempt_streams i l st)) <-> In m (st_marks st) \/ exists j d, nth_error l j = Some (true, d) /\ m = (PSection (i + j), []).
Proof.
  induction l as [|[b d] l IH]; intros i st; cbn [exempt_streams].
  - split; [reflexivity|]. split; [reflexivity|]. intros m. split; [now left|]. intros [H|(j & d & H & _)]; [exact H|destruct j; discriminate].
  - destruct (IH (S i) (if b then add_mark (PSection i, []) st else st)) as (H1 & H2 & H3). split; [rewrite H1; destruct b; reflexivity|].
    split; [rewrite H2; destruct b; reflexivity|]. intros m. rewrite H3. split.
    + intros [H|(j & d' & Hj & ->)].
      * destruct b; [|left; exact H]. destruct H as [<-|H]; [|left; exact H]. right. exists 0%nat, d. split; [reflexivity|]. rewrite Nat.add_0_r. reflexivity.
      * right. exists (S j), d'. split; [exact Hj|]. rewrite Nat.add_succ_r. reflexivity.
    + intros [H|(j & d' & Hj & ->)].
      * left. destruct b; [right|]; exact H.
      * destruct j as [|j]; cbn [nth_error] in Hj.
        -- injection Hj as -> ->. left. left. rewrite Nat.add_0_r. reflexivity.
        -- right. exists j, d'. split; [exact Hj|]. rewrite Nat.add_succ_r. reflexivity.
Qed.

Lemma identifiers_marks : forall l i st, st_ready (exempt_identifiers i l st) = st_ready st /\ st_dictionary (exempt_identifiers i l st) = st_dictionary st /\
  forall m, In m (st_marks (exempt_identifiers i l st)) <-> In m (st_marks st) \/
    exists j b d, nth_error l j = Some (b, d) /\ sm_contains (str "ID") d = true /\ m = (PSection (i + j), [SKey (str "ID")]).
Proof.
  induction l as [|[b d] l IH]; intros i st; cbn [exempt_identifiers].
  - split; [reflexivity|]. split; [reflexivity|]. intros m. split; [now left|]. intros [H|(j & b & d & H & _)]; [exact H|destruct j; discriminate].
  - destruct (IH (S i) (if sm_contains (str "ID") d then add_mark (PSection i, [SKey (str "ID")]) st else st)) as (H1 & H2 & H3).
    split; [rewrite H1; destruct (sm_contains _ d); reflexivity|].
    split; [rewrite H2; destruct (sm_contains _ d); reflexivity|]. intros m. rewrite H3. split.
    + intros [H|(j & b' & d' & Hj & Hc & ->)].
      * destruct (sm_contains (str "ID") d) eqn:Ec; [|left; exact H]. destruct H as [<-|H]; [|left; exact H]. right. exists 0%nat, b, d.
        split; [reflexivity|]. split; [exact Ec|]. rewrite Nat.add_0_r. reflexivity.
      * right. exists (S j), b', d'. split; [exact Hj|]. split; [exact Hc|]. rewrite Nat.add_succ_r. reflexivity.
    + intros [H|(j & b' & d' & Hj & Hc & ->)].
      * left. destruct (sm_contains _ d); [right|]; exact H.
      * destruct j as [|j]; cbn [nth_error] in Hj.
        -- injection Hj as -> ->. left. rewrite Hc. left. rewrite Nat.add_0_r. reflexivity.
        -- right. exists j, b', d'. split; [exact Hj|]. split; [exact Hc|]. rewrite Nat.add_succ_r. reflexivity.
Qed.

(** the marks for the encryption dictionary *)
Definition dictionary_mark (f : source) (m : spot) : Prop :=
  exists t s o, trailer f 0 t /\ has_entry t (str "Encrypt") (s, o) /\
    match o with ORef n g => m = (PObject n g, []) /\ exists u, f_object f n g = Ok u | _ => m = s end.

Lemma dictionary_marks : forall f st st', exempt_dictionary f st = (st', Ok tt) -> st_marks st = [] -> st_dictionary st = None ->
  st_ready st' = st_ready st /\ (forall m, In m (st_marks st') <-> dictionary_mark f m) /\
  (forall u, st_dictionary st' = Some u <-> exists t s o, trailer f 0 t /\ has_entry t (str "Encrypt") (s, o) /\ match o with ORef n g => f_object f n g = Ok u | _ => u = o end) /\
  (forall t s n g, trailer f 0 t -> has_entry t (str "Encrypt") (s, ORef n g) -> f_packed f n g = false).
Proof.
  intros f st st' H Hm Hd. unfold exempt_dictionary in H. destruct (f_sections f) as [|[b d] rest] eqn:Es; [apply pair_equal_spec in H; destruct H; discriminate|].
  assert (Ht := first_trailer _ _ _ _ Es). set (t := ((PSection 0, []), ODict d) : loc) in *.
  destruct (sm_find (str "Encrypt") d) as [o|] eqn:Eo.
  - assert (He : has_entry t (str "Encrypt") ((PSection 0, [SKey (str "Encrypt")]), o)) by (apply (entry_intro t); exact Eo).
    assert (Hu : forall t' e, trailer f 0 t' -> has_entry t' (str "Encrypt") e -> e = ((PSection 0, [SKey (str "Encrypt")]), o)).
    { intros t' e H1 H2. rewrite (trailer_det _ _ _ _ H1 Ht) in H2. exact (entry_det _ _ _ _ H2 He). }
    destruct (ref_dec o) as [(n & g & ->)|Hn].
    + destruct (f_packed f n g) eqn:Ep; [apply pair_equal_spec in H; destruct H; discriminate|].
      destruct (f_object f n g) as [u|ex| |] eqn:Ef; try (apply pair_equal_spec in H; destruct H; discriminate).
      apply pair_equal_spec in H. destruct H as [<- _]. split; [reflexivity|]. cbn [st_marks st_dictionary]. rewrite Hm. split; [|split].
      * intros m. split.
        -- intros [<-|[]]. eexists t, _, _. split; [exact Ht|]. split; [exact He|]. split; [reflexivity|exists u; exact Ef].
        -- intros (t' & s & o & H1 & H2 & H3). apply (Hu _ _ H1) in H2. apply pair_equal_spec in H2. destruct H2 as [_ ->]. left. symmetry. apply H3.
      * intros w. split.
        -- intros Hw. injection Hw as <-. eexists t, _, _. split; [exact Ht|]. split; [exact He|]. exact Ef.
        -- intros (t' & s & o & H1 & H2 & H3). apply (Hu _ _ H1) in H2. apply pair_equal_spec in H2. destruct H2 as [_ ->]. congruence.
      * intros t' s n' g' H1 H2. apply (Hu _ _ H1) in H2. apply pair_equal_spec in H2. destruct H2 as [_ H2]. congruence.
    + assert (H' : ({| st_ready := st_ready st; st_marks := (PSection 0, [SKey (str "Encrypt")]) :: st_marks st; st_dictionary := Some o |}, Ok tt) = (st', Ok tt)).
      { destruct o; try exact H. destruct Hn. eexists _, _. reflexivity. }
      clear H. apply pair_equal_spec in H'. destruct H' as [<- _]. split; [reflexivity|]. cbn [st_marks st_dictionary]. rewrite Hm. split; [|split].
      * intros m. split.
        -- intros [<-|[]]. eexists t, _, _. split; [exact Ht|]. split; [exact He|]. destruct o; try reflexivity. destruct Hn. eexists _, _. reflexivity.
        -- intros (t' & s & o' & H1 & H2 & H3). apply (Hu _ _ H1) in H2. apply pair_equal_spec in H2. destruct H2 as [-> ->]. left.
           destruct o; try (symmetry; exact H3). destruct Hn. eexists _, _. reflexivity.
      * intros w. split.
        -- intros Hw. injection Hw as <-. eexists t, _, _. split; [exact Ht|]. split; [exact He|]. destruct o; try reflexivity. destruct Hn. eexists _, _. reflexivity.
        -- intros (t' & s & o' & H1 & H2 & H3). apply (Hu _ _ H1) in H2. apply pair_equal_spec in H2. destruct H2 as [-> ->].
           f_equal. destruct o; try (symmetry; exact H3). destruct Hn. eexists _, _. reflexivity.
      * intros t' s n' g' H1 H2. apply (Hu _ _ H1) in H2. apply pair_equal_spec in H2. destruct H2 as [_ H2]. destruct Hn. exists n', g'. symmetry. exact H2.
  - apply pair_equal_spec in H. destruct H as [<- _]. split; [reflexivity|]. rewrite Hm, Hd.
    assert (Hno : forall t' e, trailer f 0 t' -> has_entry t' (str "Encrypt") e -> False).
    { intros t' e H1 H2. rewrite (trailer_det _ _ _ _ H1 Ht) in H2. apply entry_contains in H2. destruct H2 as [_ H2]. cbn [t snd entries] in H2. congruence. }
    split; [|split].
    + intros m. split; [intros []|intros (t' & s & o & H1 & H2 & _)]. destruct (Hno _ _ H1 H2).
    + intros u. split; [discriminate|intros (t' & s & o & H1 & H2 & _)]. destruct (Hno _ _ H1 H2).
    + intros t' s n g H1 H2. destruct (Hno _ _ H1 H2).
Qed.

(** all marks *)
Lemma all_marks : forall fuel f st, initialize fuel f closed = (st, Ok tt) ->
  st_ready st = true /\
  (forall m, In m (st_marks st) <-> dictionary_mark f m \/ (exists i d, nth_error (f_sections f) i = Some (true, d) /\ m = (PSection i, [])) \/
     (exists i b d, nth_error (f_sections f) i = Some (b, d) /\ sm_contains (str "ID") d = true /\ m = (PSection i, [SKey (str "ID")])) \/
     (exists fs x c, field_list f fs /\ element fs x /\ found_at f x c /\ m = fst c)) /\
  (forall u, st_dictionary st = Some u <-> exists t s o, trailer f 0 t /\ has_entry t (str "Encrypt") (s, o) /\ match o with ORef n g => f_object f n g = Ok u | _ => u = o end) /\
  (forall fs x, field_list f fs -> element fs x -> exists e r, signature_contents fuel e f x = Ok r).
Proof.
  intros fuel f st H. unfold initialize in H. cbn [closed st_ready st_marks st_dictionary] in H.
  destruct (exempt_dictionary f _) as [st1 [[]|ex| |]] eqn:E1; try (apply pair_equal_spec in H; destruct H; discriminate).
  apply dictionary_marks in E1; [|reflexivity|reflexivity]. cbn [st_ready] in E1. destruct E1 as (R1 & M1 & D1 & _).
  destruct (streams_marks (f_sections f) 0 st1) as (R2 & D2 & M2). set (st2 := exempt_streams 0 (f_sections f) st1) in *.
  destruct (identifiers_marks (f_sections f) 0 st2) as (R3 & D3 & M3). set (st3 := exempt_identifiers 0 (f_sections f) st2) in *.
  unfold exempt_signatures in H. destruct (form_fields fuel (is_encrypted st3) f) as [items|ex| |] eqn:Ef; try (apply pair_equal_spec in H; destruct H; discriminate).
  apply fields_marks in H. destruct H as (R4 & D4 & M4 & A4). assert (Hi := form_items _ _ _ _ Ef).
  split; [congruence|]. split; [|split].
  - intros m. rewrite M4, M3, M2, M1. split.
    + intros [[[H|H]|H]|(x & Hx & Ex)].
      * left. exact H.
      * right. left. exact H.
      * right. right. left. exact H.
      * right. right. right. apply Hi in Hx. destruct Hx as (fs & Hf & He). apply contents_found in Ex. destruct Ex as (c & Hc & <-). exists fs, x, c. auto.
    + intros [H|[H|[H|(fs & x & c & Hf & He & (l & v & s & b & P1 & P2 & P3 & P4 & P5 & P6) & ->)]]].
      * left. left. left. exact H.
      * left. left. right. exact H.
      * left. right. exact H.
      * right. assert (Hx : In x items) by (apply Hi; exists fs; auto). exists x. split; [exact Hx|]. destruct (A4 _ Hx) as (r & Er). rewrite Er.
        destruct (contents_complete _ _ _ _ _ _ _ c _ Er P1 P2 P3 P4) as (_ & Hc). apply Hc in P5. destruct P5 as [-> _]. reflexivity.
  - intros u. rewrite D4, D3, D2. apply D1.
  - intros fs x Hf He. exists (is_encrypted st3). apply A4. apply Hi. exists fs. auto.
Qed.

(** covering *)
Lemma place_eqb_eq : forall a b, place_eqb a b = true <-> a = b.
Proof.
  intros [i|n g] [j|m h]; cbn [place_eqb]; split; intros H; try discriminate.
  - apply Nat.eqb_eq in H. congruence.
  - injection H as ->. apply Nat.eqb_refl.
  - apply andb_true_iff in H. destruct H as [H1 H2]. apply N.eqb_eq in H1, H2. congruence.
  - injection H as -> ->. rewrite !N.eqb_refl. reflexivity.
Qed.
Lemma step_eqb_eq : forall a b, step_eqb a b = true <-> a = b.
Proof.
  intros [k|i] [l|j]; cbn [step_eqb]; split; intros H; try discriminate.
  - apply beq_true in H. congruence.
  - apply beq_true. congruence.
  - apply Nat.eqb_eq in H. congruence.
  - apply Nat.eqb_eq. congruence.
Qed.
Lemma leads_to_app : forall p q, leads_to p q = true <-> exists r, q = p ++ r.
Proof.
  induction p as [|x p IH]; intros q; cbn [leads_to].
  - split; [intros _; exists q; reflexivity|reflexivity].
  - destruct q as [|y q]; [split; [discriminate|intros (r & H); discriminate]|]. rewrite andb_true_iff, step_eqb_eq, IH. split.
    + intros (-> & r & ->). exists r. reflexivity.
    + intros (r & H). cbn [app] in H. injection H as -> ->. split; [reflexivity|exists r; reflexivity].
Qed.
Lemma covers_inside : forall a b, covers a b = true <-> inside a b.
Proof.
  intros [p u] [q w]. unfold covers, inside. cbn [fst snd]. rewrite andb_true_iff, place_eqb_eq, leads_to_app. split.
  - intros (-> & r & ->). exists r. reflexivity.
  - intros (r & H). apply pair_equal_spec in H. destruct H as [-> ->]. split; [reflexivity|exists r; reflexivity].
Qed.
Lemma exempt_marks : forall f st p, exempt f st p = true <-> born_exempt f (fst p) = true \/ exists m, In m (st_marks st) /\ inside m p.
Proof.
  intros f st p. unfold exempt. rewrite orb_true_iff, existsb_exists. split; (intros [H|(m & H1 & H2)]; [left; exact H|right; exists m; split; [exact H1|]; now apply covers_inside]).
Qed.
Lemma born_plain : forall f p q, born_exempt f p = true -> left_plain f (p, q).
Proof.
  intros f [i|n g] q H; cbn [born_exempt] in H; [discriminate|]. apply orb_true_iff in H. destruct H as [H|H]; [apply plain_packed; exact H|].
  apply existsb_exists in H. destruct H as ([a b] & Hin & H). cbn [fst snd] in H. apply andb_true_iff in H. destruct H as [H1 H2].
  apply N.eqb_eq in H1, H2. subst. apply plain_xref_stream. exact Hin.
Qed.

(** nothing but references inside a reference *)
Lemma part_of_ref : forall n g q v, at_path (ORef n g) q v -> q = [] /\ v = ORef n g.
Proof. intros n g [|[k|i] q] v H; cbn [at_path] in H; [split; [reflexivity|exact H]|destruct H as (d & u & [E|(s & E)] & _); discriminate|destruct H as (a & u & E & _); discriminate]. Qed.

Lemma points_self : forall f s o, ~ is_ref o -> points f (s, o) (s, o).
Proof. intros. apply points_here. assumption. Qed.

Lemma at_path_first : forall d k q v, at_path (ODict d) (SKey k :: q) v -> exists u, sm_find k d = Some u /\ at_path u q v.
Proof. intros d k q v (d' & u & [E|(s & E)] & Hf & Hu); [|discriminate]. injection E as ->. exists u. auto. Qed.

Lemma data_not_ref : forall o, has_data o -> ~ is_ref o.
Proof. intros o [(s & [-> | ->])|(d & s & ->)] (n & g & E); discriminate. Qed.

Lemma marked_plain : forall fuel f st p v, initialize fuel f closed = (st, Ok tt) -> part f p v -> has_data v -> exempt f st p = true -> left_plain f p.
Proof.
  intros fuel f st [pl q] v Hi Hp Hv He. apply exempt_marks in He. destruct He as [He|(m & Hm & Hin)]; [apply born_plain; exact He|].
  destruct (all_marks _ _ _ Hi) as (_ & Hmarks & _). apply Hmarks in Hm. clear Hmarks.
  destruct Hm as [(t & s & o & Ht & Hent & Ho)|[(i & d & Hn & ->)|[(i & b & d & Hn & Hc & ->)|(fs & x & c & Hf & Hx & (l & w & s & b & P1 & P2 & P3 & P4 & P5 & P6) & ->)]]].
  - destruct (ref_dec o) as [(n & g & ->)|Hn].
    + destruct Ho as [-> (u & Hu)]. destruct Hin as (r & E). cbn [fst snd app] in E. apply pair_equal_spec in E. destruct E as [-> ->].
      cbn [part fst snd] in Hp. destruct Hp as (o & Ho & Ha). assert (o = u) by congruence. subst o.
      destruct (ref_dec u) as [(n' & g' & ->)|Hnu].
      * apply part_of_ref in Ha. destruct Ha as [_ ->]. destruct (data_not_ref _ Hv). eexists _, _. reflexivity.
      * eapply plain_dictionary; [exact Ht|exists (s, ORef n g); split; [exact Hent|eapply points_ref; [exact Hu|apply points_self; exact Hnu]]|].
        exists r. reflexivity.
    + assert (m = s) by (destruct o; try exact Ho; destruct Hn; eexists _, _; reflexivity). subst m.
      eapply plain_dictionary; [exact Ht|exists (s, o); split; [exact Hent|apply points_self; exact Hn]|]. exact Hin.
  - destruct Hin as (r & E). cbn [fst snd app] in E. apply pair_equal_spec in E. destruct E as [-> ->]. eapply plain_xref_trailer. exact Hn.
  - destruct Hin as (r & E). cbn [fst snd app] in E. apply pair_equal_spec in E. destruct E as [-> ->].
    cbn [part fst snd] in Hp. destruct Hp as (b' & d' & Hn' & Ha). rewrite Hn in Hn'. injection Hn' as <- <-. apply at_path_first in Ha.
    destruct Ha as (u & Hu & Ha). destruct (ref_dec u) as [(n' & g' & ->)|Hnu].
    { apply part_of_ref in Ha. destruct Ha as [_ ->]. destruct (data_not_ref _ Hv). eexists _, _. reflexivity. }
    eapply plain_identifier with (i := i) (t := ((PSection i, []), ODict d)); [exists b, d; split; [exact Hn|reflexivity]| |].
    + eexists. split; [apply (entry_intro ((PSection i, []), ODict d)); exact Hu|apply points_self; exact Hnu].
    + exists r. reflexivity.
  - eapply plain_signature with (c := c); [|exact Hin]. exists l, w, b. split; [|split; [exact P4|split; [exact P5|right; exact P6]]].
    eapply field_top; [exact Hf|exact Hx|exact P1|exact P2|]. left. exists s, (str "Sig"). split; [exact P3|reflexivity].
Qed.

Lemma plain_marked : forall fuel f st p, usual_layout f -> initialize fuel f closed = (st, Ok tt) -> left_plain f p -> exempt f st p = true.
Proof.
  intros fuel f st p (L1 & L2 & L3) Hi H. apply exempt_marks. destruct (all_marks _ _ _ Hi) as (_ & Hmarks & Hdict & Hall).
  destruct H as [t v p Ht (e & He & Hv) Hin|i t v p Ht (e & He & Hv) Hin|i d q Hn|n g q Hn|n g q Hn|c p (l & v & s & Hfld & Hv & Hc & Htx) Hin].
  - right. exists (fst v). split; [|exact Hin]. apply Hmarks. left. destruct e as [s o]. exists t, s, o. split; [exact Ht|]. split; [exact He|].
    inversion Hv; subst.
    + match goal with H : ~ is_ref o |- _ => destruct o; try reflexivity; destruct H; eexists _, _; reflexivity end.
    + match goal with H : f_object f n g = Ok ?u |- _ => assert (Hnu := L1 _ _ _ _ _ Ht He H) end.
      match goal with H : points f (_, ?u) v |- _ => inversion H; subst end; [split; [reflexivity|eexists; eassumption]|].
      destruct Hnu. eexists _, _. reflexivity.
  - right. exists (fst v). split; [|exact Hin]. apply Hmarks. right. right. left. destruct e as [s o]. assert (Hn := L2 _ _ _ _ Ht He).
    destruct Ht as (b & d & Hd & ->). exists i, b, d. split; [exact Hd|]. assert (Hc := entry_contains _ _ _ He). split; [apply Hc|].
    destruct He as (d' & o' & H1 & H2 & H3). apply pair_equal_spec in H3. destruct H3 as [-> ->].
    inversion Hv; subst; [reflexivity|]. destruct Hn. eexists _, _. reflexivity.
  - right. exists (PSection i, []). split; [apply Hmarks; right; left; exists i, d; auto|exists q; reflexivity].
  - left. cbn [fst born_exempt]. apply orb_true_iff. right. apply existsb_exists. exists (n, g). split; [exact Hn|]. cbn [fst snd]. rewrite !N.eqb_refl. reflexivity.
  - left. cbn [fst born_exempt]. rewrite Hn. reflexivity.
  - right. exists (fst c). split; [|exact Hin]. apply Hmarks. right. right. right.
    inversion Hfld as [fs x l' t Hfs Hx Hl Hd Ht|par u ks x l' t Hpar Hks]; subst.
    + destruct Ht as [(s' & n & Hft & E)|(_ & E)]; [|discriminate].
      assert (n = str "Sig") by congruence. subst n. exists fs, x, c. split; [exact Hfs|]. split; [exact Hx|]. split; [|reflexivity].
      destruct (Hall _ _ Hfs Hx) as (e & r & Er). destruct (contents_complete _ _ _ _ _ _ _ c _ Er Hl Hd Hft Hv) as (_ & Hcc).
      apply Hcc in Hc as Hhex. destruct Hhex as [_ Hhex]. destruct (snd c) eqn:Ec; try discriminate. exists l, v, s', v0. auto 10.
    + destruct Hks as (ek & Hek & _). destruct (L3 _ _ _ Hpar Hek).
Qed.

(** opening succeeds *)
Lemma fetch_orderly : forall e f n g, orderly f -> exists o, fetch e f n g = Ok o /\ f_object f n g = Ok o /\ ~ is_ref o.
Proof.
  intros e f n g (_ & Ho & _ & Hk & _). destruct (Ho n g) as (o & Hf & Hr). exists o. split; [|split; assumption]. unfold fetch. destruct (e && f_packed f n g) eqn:E; [|exact Hf].
  apply andb_true_iff in E. destruct E as [_ E]. destruct Hk as [(k & Hk)|Hk]; [rewrite Hk; exact Hf|rewrite Hk in E; discriminate].
Qed.
Lemma follow_direct : forall fuel e f vis s o, ~ is_ref o -> follow fuel e f vis (s, o) = Ok (s, o).
Proof. intros fuel e f vis s o H. destruct fuel; destruct o; try reflexivity; destruct H; eexists _, _; reflexivity. Qed.
Lemma follow_orderly : forall k e f l, orderly f -> exists l', follow (S k) e f [] l = Ok l' /\ points f l l'.
Proof.
  intros k e f [s o] Ho. destruct (ref_dec o) as [(n & g & ->)|Hn].
  - destruct (fetch_orderly e f n g Ho) as (o & Hf & Hobj & Hr). exists ((PObject n g, []), o). split.
    + cbn [follow snd existsb]. rewrite Hf. cbn [rbind]. apply follow_direct. exact Hr.
    + eapply points_ref; [exact Hobj|apply points_self; exact Hr].
  - exists (s, o). split; [apply follow_direct; exact Hn|apply points_self; exact Hn].
Qed.
Lemma find_as_orderly : forall kind k e f l key, orderly f -> sm_contains key (entries (snd l)) = true ->
  (forall v, value_of f l key v -> kind (snd v) = true) -> exists v, find_as kind (S k) e f (fst l) (entries (snd l)) key = Ok v /\ value_of f l key v.
Proof.
  intros kind k e f l key Ho Hc Hk. unfold find_as. unfold sm_contains in Hc. destruct (sm_find key (entries (snd l))) as [o|] eqn:E; [|discriminate].
  destruct (follow_orderly k e f (child (fst l) (SKey key), o) Ho) as (v & Hv & Hp). rewrite Hv. cbn [rbind].
  assert (Hval : value_of f l key v) by (eexists; split; [apply entry_intro; exact E|exact Hp]). rewrite (Hk _ Hval). exists v. auto.
Qed.

Lemma contents_orderly : forall k e f fs x, orderly f -> field_list f fs -> element fs x -> exists r, signature_contents (S k) e f x = Ok r.
Proof.
  intros k e f fs x Ho Hf Hx. assert (Ho' := Ho). destruct Ho' as (_ & _ & _ & _ & _ & _ & Hfield). unfold signature_contents.
  destruct (follow_orderly k e f x Ho) as (l & Hl & Hp). rewrite Hl. cbn [rbind]. destruct (Hfield _ _ _ Hf Hx Hp) as [Hft Hv].
  destruct (is_dictionary (snd l)) eqn:Ed; cbn [negb]; [|eexists; reflexivity].
  destruct (sm_contains (str "FT") (entries (snd l))) eqn:Ec; cbn [negb]; [|eexists; reflexivity].
  destruct (find_as_orderly is_name k e f l (str "FT") Ho Ec) as (t & Et & Vt). { intros t Ht. destruct (Hft _ Ht) as (n & ->). reflexivity. }
  rewrite Et. cbn [rbind]. match goal with |- context [if negb ?b then _ else _] => destruct b eqn:Eb end; cbn [negb]; [|eexists; reflexivity].
  destruct (sm_contains (str "V") (entries (snd l))) eqn:Ev; cbn [negb]; [|eexists; reflexivity].
  assert (Hsig : exists s, value_of f l (str "FT") (s, OName (str "Sig"))).
  { destruct t as [s o]. cbn [snd] in *. destruct o; try discriminate. apply beq_true in Eb. subst. exists s. exact Vt. }
  destruct Hsig as (s & Hsig).
  destruct (find_as_orderly is_dictionary k e f l (str "V") Ho Ev) as (v & Ew & Vw). { intros v Hval. destruct (Hv _ _ Hsig Hval) as [(d & ->) _]. reflexivity. }
  rewrite Ew. cbn [rbind]. destruct (sm_contains (str "Contents") (entries (snd v))) eqn:Ek; cbn [negb]; [|eexists; reflexivity].
  destruct (find_as_orderly is_hex k e f v (str "Contents") Ho Ek) as (c & Eq & _). { intros c Hval. destruct (Hv _ _ Hsig Vw) as [_ Hx']. destruct (Hx' _ Hval) as (b & ->). reflexivity. }
  rewrite Eq. cbn [rbind]. eexists. reflexivity.
Qed.

Lemma fields_orderly : forall fuel e f items st, (forall x, In x items -> exists r, signature_contents fuel e f x = Ok r) ->
  exists st', exempt_fields fuel e f items st = (st', Ok tt).
Proof.
  intros fuel e f. induction items as [|x t IH]; intros st H; cbn [exempt_fields]; [eexists; reflexivity|].
  destruct (H x (or_introl eq_refl)) as ([s|] & ->); apply IH; intros y Hy; apply H; right; exact Hy.
Qed.

Lemma form_orderly : forall k e f, orderly f -> exists items, form_fields (S k) e f = Ok items.
Proof.
  intros k e f Ho. assert (Ho' := Ho). destruct Ho' as (Hs & _ & _ & _ & Hform & Hlist & _). unfold form_fields.
  destruct (f_sections f) as [|[b d] rest] eqn:Es; [contradiction|]. assert (Ht := first_trailer _ _ _ _ Es). set (t := ((PSection 0, []), ODict d) : loc) in *.
  destruct (sm_find (str "Root") d) as [r|] eqn:Er; [|eexists; reflexivity].
  destruct (follow_orderly k e f ((PSection 0, [SKey (str "Root")]), r) Ho) as (root & Hr & Hp). rewrite Hr. cbn [rbind].
  assert (Vr : value_of f t (str "Root") root). { eexists. split; [apply (entry_intro t); exact Er|exact Hp]. }
  destruct (is_dictionary (snd root)); cbn [negb]; [|eexists; reflexivity].
  destruct (sm_contains (str "AcroForm") (entries (snd root))) eqn:Ea; cbn [negb]; [|eexists; reflexivity].
  destruct (find_as_orderly is_dictionary k e f root (str "AcroForm") Ho Ea) as (form & Ef & Vf). { intros v Hv. destruct (Hform _ _ _ Ht Vr Hv) as (x & ->). reflexivity. }
  rewrite Ef. cbn [rbind]. destruct (sm_contains (str "Fields") (entries (snd form))) eqn:Efs; cbn [negb]; [|eexists; reflexivity].
  destruct (find_as_orderly is_array k e f form (str "Fields") Ho Efs) as (fl & Efl & Vfl).
  { intros v Hv. destruct (Hlist v) as (a & ->); [exists t, root, form; auto|reflexivity]. }
  rewrite Efl. cbn [rbind]. eexists. reflexivity.
Qed.

Lemma orderly_opens : forall k f, orderly f -> exists st, initialize (S k) f closed = (st, Ok tt).
Proof.
  intros k f Ho. unfold initialize. cbn [closed st_ready st_marks st_dictionary].
  assert (He : exists st1, exempt_dictionary f {| st_ready := true; st_marks := []; st_dictionary := None |} = (st1, Ok tt)).
  { assert (Ho' := Ho). destruct Ho' as (Hs & Hobj & Hpk & _). unfold exempt_dictionary. destruct (f_sections f) as [|[b d] rest] eqn:Es; [contradiction|].
    assert (Ht := first_trailer _ _ _ _ Es). destruct (sm_find (str "Encrypt") d) as [o|] eqn:Eo; [|eexists; reflexivity].
    destruct (ref_dec o) as [(n & g & ->)|Hn].
    - rewrite (Hpk _ _ _ _ Ht (entry_intro ((PSection 0, []), ODict d) _ _ Eo)). destruct (Hobj n g) as (u & -> & _). eexists. reflexivity.
    - destruct o; try (eexists; reflexivity). destruct Hn. eexists _, _. reflexivity. }
  destruct He as (st1 & ->). set (st3 := exempt_identifiers 0 (f_sections f) (exempt_streams 0 (f_sections f) st1)). unfold exempt_signatures.
  destruct (form_orderly k (is_encrypted st3) f Ho) as (items & Hitems). rewrite Hitems. apply fields_orderly. intros x Hx.
  apply (form_items _ _ _ _ Hitems) in Hx. destruct Hx as (fs & Hf & Hx). eapply contents_orderly; eassumption.
Qed.

From Coq Require Import List NArith Bool Lia.
From Verif.Model Require Import Base DocMap.
From Verif.Spec Require Import DocMap.
From Verif.Proof Require Import Tac.
Import ListNotations.
Local Open Scope N_scope.

Lemma lookup_erase : forall m a b, lookup (erase m a) b = if b =? a then None else lookup m b.
Proof.
  induction m as [|[k v] m IH]; intros a b; unfold lookup, erase in *; cbn [filter find fst option_map].
  - destruct (b =? a); reflexivity.
  - destruct (k =? a) eqn:E; cbn [negb find fst].
    + rewrite IH. destruct (b =? a) eqn:Eb; [reflexivity|]. destruct (k =? b) eqn:Ek; [lia|reflexivity].
    + destruct (k =? b) eqn:Ek; cbn [find fst option_map].
      * destruct (b =? a) eqn:Eb; [lia|reflexivity].
      * apply IH.
Qed.
Lemma lookup_assign : forall m a d b, lookup (assign m a d) b = if b =? a then Some d else lookup m b.
Proof.
  intros m a d b. unfold assign, lookup. cbn [find fst]. destruct (a =? b) eqn:E.
  - destruct (b =? a) eqn:E2; [reflexivity|lia].
  - destruct (b =? a) eqn:E2; [lia|]. pose proof (lookup_erase m a b) as H. rewrite E2 in H. exact H.
Qed.

Record Inv (s : state) : Prop := {
  i_fid : NoDup (map f_id (files s));
  i_fnext : forall x, In x (files s) -> f_id x < next s;
  i_addr : NoDup (map f_address (files s));
  i_did : NoDup (map d_id (docs s));
  i_dnext : forall y, In y (docs s) -> d_id y < next s;
  i_map : forall y, In y (docs s) -> exists x, In x (files s) /\ f_id x = d_file y /\ lookup (mapping s) (f_address x) = Some (d_id y);
  i_mnext : forall a d, lookup (mapping s) a = Some d -> d < next s;
  i_minj : forall a b d, lookup (mapping s) a = Some d -> lookup (mapping s) b = Some d -> a = b }.

(** every entry of the map is that of a document that is open *)
Definition Live (s : state) : Prop :=
  forall a d, lookup (mapping s) a = Some d ->
    exists y x, In y (docs s) /\ d_id y = d /\ In x (files s) /\ f_id x = d_file y /\ f_address x = a.

Lemma find_file_in : forall s f x, find_file s f = Some x -> In x (files s) /\ f_id x = f.
Proof. intros s f x H. apply find_some in H. destruct H as [H1 H2]. split; [exact H1|lia]. Qed.
Lemma find_doc_in : forall s f x, find_doc s f = Some x -> In x (docs s) /\ d_id x = f.
Proof. intros s f x H. apply find_some in H. destruct H as [H1 H2]. split; [exact H1|lia]. Qed.

Lemma nodup_map_inj : forall (A : Type) (f : A -> N) l x y, NoDup (map f l) -> In x l -> In y l -> f x = f y -> x = y.
Proof.
  induction l as [|z l IH]; intros x y Hn Hx Hy E; [destruct Hx|]. cbn in Hn. inversion Hn as [|? ? Hz Hl]; subst.
  destruct Hx as [->|Hx], Hy as [->|Hy]; [reflexivity| | |apply IH; assumption].
  - exfalso. apply Hz. rewrite E. apply in_map, Hy.
  - exfalso. apply Hz. rewrite <- E. apply in_map, Hx.
Qed.
Lemma nodup_filter : forall (A : Type) (f : A -> N) p l, NoDup (map f l) -> NoDup (map f (filter p l)).
Proof.
  induction l as [|z l IH]; intros Hn; [constructor|]. cbn in Hn. inversion Hn as [|? ? Hz Hl]; subst. cbn [filter].
  destruct (p z); [|apply IH, Hl]. cbn [map]. constructor; [|apply IH, Hl].
  intros Hin. apply Hz. apply in_map_iff in Hin. destruct Hin as (w & E & Hw). apply filter_In in Hw. rewrite <- E. apply in_map, Hw.
Qed.
Lemma find_doc_none : forall s d, find_doc s d = None -> forall y, In y (docs s) -> d_id y <> d.
Proof. intros s d H y Hy E. pose proof (find_none _ _ H y Hy) as X. cbn in X. lia. Qed.
Lemma find_file_none : forall s d, find_file s d = None -> forall y, In y (files s) -> f_id y <> d.
Proof. intros s d H y Hy E. pose proof (find_none _ _ H y Hy) as X. cbn in X. lia. Qed.

Lemma with_handles_id : forall d f y, d_id (with_handles d f y) = d_id y.
Proof. intros. unfold with_handles. cif; reflexivity. Qed.
Lemma with_handles_file : forall d f y, d_file (with_handles d f y) = d_file y.
Proof. intros. unfold with_handles. cif; reflexivity. Qed.
Lemma map_with_id : forall d f l, map d_id (map (with_handles d f) l) = map d_id l.
Proof. intros. rewrite map_map. apply map_ext. intros; apply with_handles_id. Qed.
Lemma dropped_same : forall f z, f_id (dropped f z) = f_id z /\ f_address (dropped f z) = f_address z.
Proof. intros. unfold dropped. cif; auto. Qed.

(** changing handles keeps everything *)
Lemma inv_handles : forall s d f, Inv s ->
  Inv {| files := files s; docs := map (with_handles d f) (docs s); mapping := mapping s; next := next s |}.
Proof.
  intros s d f H. destruct H. constructor; cbn [files docs mapping next]; try assumption.
  - rewrite map_with_id. assumption.
  - intros y Hy. apply in_map_iff in Hy. destruct Hy as (z & <- & Hz). rewrite with_handles_id. auto.
  - intros y Hy. apply in_map_iff in Hy. destruct Hy as (z & <- & Hz). rewrite with_handles_id, with_handles_file. auto.
Qed.
Lemma live_handles : forall s d f, Live s ->
  Live {| files := files s; docs := map (with_handles d f) (docs s); mapping := mapping s; next := next s |}.
Proof.
  intros s d f H a e Hl. destruct (H a e Hl) as (y & x & Hy & Hd & Hx & Hf & Ha).
  exists (with_handles d f y), x. cbn [docs files]. rewrite with_handles_id, with_handles_file. repeat split; auto. apply in_map, Hy.
Qed.

(** dropping files no document needs keeps everything *)
Lemma inv_collect : forall s, Inv s -> Inv (collect s).
Proof.
  intros s H. destruct H. constructor; cbn [collect files docs mapping next]; try assumption.
  - apply nodup_filter, i_fid0.
  - intros x Hx. apply filter_In in Hx. apply i_fnext0, Hx.
  - apply nodup_filter, i_addr0.
  - intros y Hy. destruct (i_map0 y Hy) as (x & Hx & Hf & Hl). exists x. repeat split; auto.
    apply filter_In. split; [exact Hx|]. unfold kept. apply orb_true_iff. right. apply existsb_exists. exists y. split; [exact Hy|]. lia.
Qed.
Lemma live_collect : forall s, Live s -> Live (collect s).
Proof.
  intros s H a d Hl. destruct (H a d Hl) as (y & x & Hy & Hd & Hx & Hf & Ha). exists y, x. cbn [collect docs files]. repeat split; auto.
  apply filter_In. split; [exact Hx|]. unfold kept. apply orb_true_iff. right. apply existsb_exists. exists y. split; [exact Hy|]. lia.
Qed.

Lemma inv_nothing : Inv nothing_open.
Proof. constructor; cbn; try constructor; try contradiction; intros; discriminate. Qed.
Lemma live_nothing : Live nothing_open.
Proof. intros a d H. discriminate H. Qed.

Lemma address_free : forall s a, address_used s a = false -> forall x, In x (files s) -> f_address x <> a.
Proof.
  intros s a H x Hx E. assert (X : address_used s a = true) by (apply existsb_exists; exists x; split; [exact Hx|lia]). congruence.
Qed.

Lemma inv_step : forall s c, Inv s -> Inv (fst (step s c)).
Proof.
  intros s c H. destruct c as [a r|f|f|d]; cbn [step].
  - destruct (address_used s a) eqn:Ea; cbn [fst]; [exact H|]. destruct H. pose proof (address_free s a Ea) as Hfree.
    constructor; cbn [files docs mapping next]; try assumption.
    + cbn [map f_id]. constructor; [|assumption]. intros Hin. apply in_map_iff in Hin. destruct Hin as (x & E & Hx). apply i_fnext0 in Hx. lia.
    + intros x [<-|Hx]; cbn [f_id]; [lia|]. apply i_fnext0 in Hx. lia.
    + cbn [map f_address]. constructor; [|assumption]. intros Hin. apply in_map_iff in Hin. destruct Hin as (x & E & Hx). exact (Hfree x Hx E).
    + intros y Hy. apply i_dnext0 in Hy. lia.
    + intros y Hy. destruct (i_map0 y Hy) as (x & Hx & Hf & Hl). exists x. split; [right; exact Hx|]. auto.
    + intros b d Hl. apply i_mnext0 in Hl. lia.
  - destruct (find_file s f) as [x|] eqn:Ex; [|exact H]. apply find_file_in in Ex. destruct Ex as [Hx Hfx].
    destruct (f_held x); [|exact H]. unfold open_document.
    destruct (lookup (mapping s) (f_address x)) as [d|] eqn:El.
    + destruct (find_doc s d); cbn [fst]; [|exact H]. apply inv_handles, H.
    + assert (Hno : forall y, In y (docs s) -> d_file y <> f_id x).
      { intros y Hy E. destruct (i_map s H y Hy) as (x' & Hx' & Hf' & Hl').
        assert (x' = x) by (apply (nodup_map_inj _ f_id (files s)); [apply (i_fid s H)|assumption|assumption|congruence]). subst x'. congruence. }
      assert (Hold : forall y, In y (docs s) -> exists x0, In x0 (files s) /\ f_id x0 = d_file y /\
          lookup (assign (mapping s) (f_address x) (next s)) (f_address x0) = Some (d_id y)).
      { intros y Hy. destruct (i_map s H y Hy) as (x' & Hx' & Hf' & Hl'). exists x'. split; [exact Hx'|]. split; [exact Hf'|].
        rewrite lookup_assign. destruct (f_address x' =? f_address x) eqn:E; [|exact Hl'].
        assert (f_address x' = f_address x) by lia. rewrite H0 in Hl'. congruence. }
      destruct H. destruct (f_readable x); cbn [fst]; constructor; cbn [files docs mapping next]; try assumption.
      * intros x0 H0. apply i_fnext0 in H0. lia.
      * cbn [map d_id]. constructor; [|assumption]. intros Hin. apply in_map_iff in Hin. destruct Hin as (y & E & Hy). apply i_dnext0 in Hy. lia.
      * intros y [<-|Hy]; cbn [d_id]; [lia|]. apply i_dnext0 in Hy. lia.
      * intros y [<-|Hy]; [|apply Hold, Hy]. exists x. cbn [d_file d_id]. split; [exact Hx|]. split; [reflexivity|]. rewrite lookup_assign, N.eqb_refl. reflexivity.
      * intros b d. rewrite lookup_assign. cif; intros E; [injection E as <-; lia|]. apply i_mnext0 in E. lia.
      * intros b1 b2 d. rewrite !lookup_assign. destruct (b1 =? f_address x) eqn:E1, (b2 =? f_address x) eqn:E2; intros E3 E4; [lia| | |eauto].
        { injection E3 as <-. apply i_mnext0 in E4. lia. } { injection E4 as <-. apply i_mnext0 in E3. lia. }
      * intros x0 H0. apply i_fnext0 in H0. lia.
      * intros y Hy. apply i_dnext0 in Hy. lia.
      * intros b d. rewrite lookup_assign. cif; intros E; [injection E as <-; lia|]. apply i_mnext0 in E. lia.
      * intros b1 b2 d. rewrite !lookup_assign. destruct (b1 =? f_address x) eqn:E1, (b2 =? f_address x) eqn:E2; intros E3 E4; [lia| | |eauto].
        { injection E3 as <-. apply i_mnext0 in E4. lia. } { injection E4 as <-. apply i_mnext0 in E3. lia. }
  - destruct (find_file s f) as [x|] eqn:Ex; [|exact H]. destruct (f_held x); [|exact H]. cbn [fst]. apply inv_collect.
    destruct H. constructor; cbn [files docs mapping next]; try assumption.
    + rewrite map_map. erewrite map_ext; [exact i_fid0|]. intros z. apply dropped_same.
    + intros z Hz. apply in_map_iff in Hz. destruct Hz as (w & <- & Hw). rewrite (proj1 (dropped_same f w)). auto.
    + rewrite map_map. erewrite map_ext; [exact i_addr0|]. intros z. apply dropped_same.
    + intros y Hy. destruct (i_map0 y Hy) as (z & Hz & Hf & Hl). exists (dropped f z). destruct (dropped_same f z) as [E1 E2]. rewrite E1, E2.
      split; [apply in_map, Hz|]. auto.
  - destruct (find_doc s d) as [y|] eqn:Ey; [|exact H]. cbn [fst]. unfold close_document. cif; [apply inv_handles, H|].
    apply inv_collect. apply find_doc_in in Ey. destruct Ey as [Hy Hd].
    destruct (i_map s H y Hy) as (x & Hx & Hf & Hl).
    assert (Eff : find_file s (d_file y) = Some x).
    { destruct (find_file s (d_file y)) as [x'|] eqn:E.
      - apply find_file_in in E. f_equal. apply (nodup_map_inj _ f_id (files s)); [apply (i_fid s H)|apply E|exact Hx|]. destruct E; congruence.
      - exfalso. exact (find_file_none s _ E x Hx Hf). }
    rewrite Eff. destruct H. constructor; cbn [files docs mapping next]; try assumption.
    + apply nodup_filter. assumption.
    + intros z Hz. apply filter_In in Hz. apply i_dnext0, Hz.
    + intros z Hz. apply filter_In in Hz. destruct Hz as [Hz Hne].
      destruct (i_map0 z Hz) as (x' & Hx' & Hf' & Hl'). exists x'. split; [exact Hx'|]. split; [exact Hf'|].
      rewrite lookup_erase. destruct (f_address x' =? f_address x) eqn:E; [|exact Hl'].
      assert (Ea : f_address x' = f_address x) by lia. rewrite Ea in Hl'. rewrite Hl in Hl'. injection Hl' as E1. exfalso. lia.
    + intros b e. rewrite lookup_erase. cif; [discriminate|]. apply i_mnext0.
    + intros b1 b2 e. rewrite !lookup_erase. destruct (b1 =? f_address x); [discriminate|]. destruct (b2 =? f_address x); [discriminate|]. apply i_minj0.
Qed.

Lemma inv_run : forall cs s, Inv s -> Inv (fst (run s cs)).
Proof.
  induction cs as [|c t IH]; intros s H; [exact H|]. cbn [run]. pose proof (inv_step s c H) as H1. destruct (step s c) as [s1 a].
  specialize (IH s1 H1). destruct (run s1 t). exact IH.
Qed.

Definition AllReadable (s : state) : Prop := forall x, In x (files s) -> f_readable x = true.

Lemma readable_step : forall s c, (forall a, c <> NewFile a false) -> AllReadable s -> AllReadable (fst (step s c)).
Proof.
  intros s c Hc H x. destruct c as [a r|f|f|d]; cbn [step].
  - destruct (address_used s a); cbn [fst files]; [apply H|]. intros [<-|Hx]; [|apply H, Hx]. cbn. destruct r; [reflexivity|]. exfalso. exact (Hc a eq_refl).
  - destruct (find_file s f) as [z|]; [|apply H]. destruct (f_held z); [|apply H]. unfold open_document.
    destruct (lookup _ _); [destruct (find_doc _ _)|destruct (f_readable z)]; cbn [fst files]; apply H.
  - destruct (find_file s f) as [z|]; [|apply H]. destruct (f_held z); [|apply H]. cbn [fst collect files]. intros Hx. apply filter_In in Hx.
    destruct Hx as [Hx _]. apply in_map_iff in Hx. destruct Hx as (w & <- & Hw). unfold dropped. cif; cbn; apply H, Hw.
  - destruct (find_doc s d); [|apply H]. cbn [fst]. unfold close_document. cif; cbn [files collect]; [apply H|]. intros Hx. apply filter_In in Hx. apply H, Hx.
Qed.

Lemma live_step : forall s c, (forall a, c <> NewFile a false) -> AllReadable s -> Inv s -> Live s -> Live (fst (step s c)).
Proof.
  intros s c Hc Hr Hi H. destruct c as [a r|f|f|d]; cbn [step].
  - destruct (address_used s a) eqn:Ea; cbn [fst]; [exact H|]. intros b e Hl. cbn [mapping] in Hl.
    destruct (H b e Hl) as (y & x & Hy & Hd & Hx & Hf & Ha). exists y, x. repeat split; auto. right. exact Hx.
  - destruct (find_file s f) as [x|] eqn:Ex; [|exact H]. pose proof (find_file_in _ _ _ Ex) as [Hx Hfx].
    destruct (f_held x); [|exact H]. unfold open_document.
    destruct (lookup (mapping s) (f_address x)) as [d|] eqn:El.
    + destruct (find_doc s d); cbn [fst]; [|exact H]. apply live_handles, H.
    + rewrite (Hr x Hx). cbn [fst]. intros b e. cbn [mapping docs files]. rewrite lookup_assign. destruct (b =? f_address x) eqn:E; intros Hl.
      * injection Hl as <-. eexists; exists x. split; [left; reflexivity|]. cbn. repeat split; auto. lia.
      * destruct (H b e Hl) as (y & z & Hy & Hd & Hz & Hf & Ha). exists y, z. repeat split; auto. right. exact Hy.
  - destruct (find_file s f) as [x|] eqn:Ex; [|exact H]. destruct (f_held x); [|exact H]. cbn [fst]. apply live_collect.
    intros b e Hl. cbn [mapping] in Hl. destruct (H b e Hl) as (y & z & Hy & Hd & Hz & Hf & Ha). exists y, (dropped f z).
    destruct (dropped_same f z) as [E1 E2]. cbn [docs files]. rewrite E1, E2. repeat split; auto. apply in_map, Hz.
  - destruct (find_doc s d) as [y|] eqn:Ey; [|exact H]. cbn [fst]. unfold close_document. cif; [apply live_handles, H|].
    apply live_collect. apply find_doc_in in Ey. destruct Ey as [Hy Hd].
    destruct (i_map s Hi y Hy) as (x & Hx & Hf & Hl).
    assert (Eff : find_file s (d_file y) = Some x).
    { destruct (find_file s (d_file y)) as [x'|] eqn:E.
      - apply find_file_in in E. f_equal. apply (nodup_map_inj _ f_id (files s)); [apply (i_fid s Hi)|apply E|exact Hx|]. destruct E; congruence.
      - exfalso. exact (find_file_none s _ E x Hx Hf). }
    rewrite Eff. intros b e. cbn [mapping docs files]. rewrite lookup_erase. destruct (b =? f_address x) eqn:E; [discriminate|]. intros Hl2.
    destruct (H b e Hl2) as (y' & x' & Hy' & Hd' & Hx' & Hf' & Ha'). exists y', x'. repeat split; auto.
    apply filter_In. split; [exact Hy'|]. destruct (d_id y' =? d_id y) eqn:E2; [|reflexivity]. exfalso.
    assert (y' = y) by (apply (nodup_map_inj _ d_id (docs s)); [apply (i_did s Hi)|assumption|assumption|lia]). subst y'.
    assert (x' = x) by (apply (nodup_map_inj _ f_id (files s)); [apply (i_fid s Hi)|assumption|assumption|congruence]). subst x'. lia.
Qed.

(** ** The expected answers *)
Definition held_part (l : list file) : list (N * bool) := map (fun x => (f_id x, f_readable x)) (filter f_held l).
Definition agree (s : state) (w : world) : Prop :=
  w_files w = held_part (files s) /\ w_docs w = docs s /\ w_next w = next s.

Lemma held_find : forall l f, NoDup (map f_id l) ->
  option_map snd (find (fun e => fst e =? f) (held_part l)) =
  match find (fun x => f_id x =? f) l with Some x => if f_held x then Some (f_readable x) else None | None => None end.
Proof.
  induction l as [|x l IH]; intros f Hn; [reflexivity|]. cbn in Hn. inversion Hn as [|? ? Hx Hl]; subst.
  unfold held_part. cbn [filter find]. destruct (f_id x =? f) eqn:E.
  - destruct (f_held x) eqn:Eh; cbn [map find fst]; [rewrite E; reflexivity|].
    fold (held_part l). rewrite IH by exact Hl. destruct (find (fun y => f_id y =? f) l) as [y|] eqn:Ef; [|reflexivity].
    exfalso. apply Hx. apply find_some in Ef. apply in_map_iff. exists y. split; [lia|apply Ef].
  - destruct (f_held x) eqn:Eh; cbn [map find fst]; [rewrite E|]; fold (held_part l); apply IH, Hl.
Qed.

Lemma held_kept : forall s, held_part (filter (kept s) (files s)) = held_part (files s).
Proof.
  intros s. generalize (files s). induction l as [|x l IH]; [reflexivity|]. cbn [filter]. unfold kept at 1.
  destruct (f_held x) eqn:Eh; cbn [orb].
  - unfold held_part in *. cbn [filter]. rewrite Eh. cbn [map]. f_equal. exact IH.
  - destruct (existsb _ _); unfold held_part in *; cbn [filter]; rewrite Eh; exact IH.
Qed.

Lemma held_dropped : forall f l, held_part (map (dropped f) l) = filter (fun e => negb (fst e =? f)) (held_part l).
Proof.
  intros f l. induction l as [|x l IH]; [reflexivity|]. unfold held_part in *. cbn [map filter]. unfold dropped at 1 2.
  destruct (f_id x =? f) eqn:E; cbn [f_held].
  - destruct (f_held x); cbn [map filter fst]; [rewrite E; cbn [negb]|]; exact IH.
  - destruct (f_held x); cbn [map filter fst]; [rewrite E; cbn [negb]; f_equal|]; exact IH.
Qed.

Lemma step_agrees : forall s w c, (forall a, c <> NewFile a false) -> AllReadable s -> Inv s -> Live s -> agree s w ->
  snd (step s c) <> ANotAllowed ->
  snd (step s c) = snd (expect w c) /\ agree (fst (step s c)) (fst (expect w c)).
Proof.
  intros s w c Hc Hr Hi Hlv (A1 & A2 & A3) Hok. destruct c as [a r|f|f|d]; cbn [step expect] in *.
  - destruct (address_used s a); cbn [fst snd] in *; [contradiction|]. rewrite A3. split; [reflexivity|].
    unfold agree. cbn [w_files w_docs w_next files docs next]. rewrite A1, A2. unfold held_part. cbn [filter f_held map f_id f_readable]. auto.
  - unfold held. rewrite A1, held_find by apply (i_fid s Hi). fold (find_file s f). destruct (find_file s f) as [x|] eqn:Ex; [|contradiction].
    destruct (f_held x) eqn:Eh; [|contradiction]. pose proof (find_file_in _ _ _ Ex) as [Hx Hfx].
    assert (Hdoc : document_of w f = match lookup (mapping s) (f_address x) with Some d => find_doc s d | None => None end).
    { unfold document_of. rewrite A2. destruct (lookup (mapping s) (f_address x)) as [d|] eqn:El.
      - destruct (Hlv _ _ El) as (y & x' & Hy & Hd & Hx' & Hf' & Ha').
        assert (x' = x) by (apply (nodup_map_inj _ f_address (files s)); [apply (i_addr s Hi)|assumption|assumption|congruence]). subst x'.
        assert (E1 : find_doc s d = Some y).
        { destruct (find_doc s d) as [y'|] eqn:E; [|exfalso; exact (find_doc_none _ _ E y Hy Hd)]. apply find_doc_in in E. f_equal.
          apply (nodup_map_inj _ d_id (docs s)); [apply (i_did s Hi)|apply E|exact Hy|]. destruct E; congruence. }
        rewrite E1. destruct (find (fun y0 => d_file y0 =? f) (docs s)) as [y'|] eqn:E.
        + apply find_some in E. destruct E as [Hy' Ef]. f_equal. destruct (i_map s Hi y' Hy') as (z & Hz & Hfz & Hlz).
          assert (z = x) by (apply (nodup_map_inj _ f_id (files s)); [apply (i_fid s Hi)|assumption|assumption|lia]). subst z.
          rewrite El in Hlz. injection Hlz as E2. apply (nodup_map_inj _ d_id (docs s)); [apply (i_did s Hi)|assumption|assumption|congruence].
        + exfalso. pose proof (find_none _ _ E y Hy) as X. cbn in X. lia.
      - destruct (find (fun y0 => d_file y0 =? f) (docs s)) as [y'|] eqn:E; [|reflexivity].
        apply find_some in E. destruct E as [Hy' Ef]. destruct (i_map s Hi y' Hy') as (z & Hz & Hfz & Hlz).
        assert (z = x) by (apply (nodup_map_inj _ f_id (files s)); [apply (i_fid s Hi)|assumption|assumption|lia]). subst z. congruence. }
    rewrite Hdoc. unfold open_document in *. destruct (lookup (mapping s) (f_address x)) as [d|] eqn:El.
    + destruct (Hlv _ _ El) as (y & x' & Hy & Hd & _).
      destruct (find_doc s d) as [y'|] eqn:E; [|exfalso; exact (find_doc_none _ _ E y Hy Hd)].
      cbn [fst snd]. apply find_doc_in in E. destruct E as [_ Ed]. rewrite Ed. split; [reflexivity|]. unfold agree. cbn. rewrite A2. auto.
    + rewrite (Hr x Hx). cbn [fst snd]. rewrite A3. split; [reflexivity|]. unfold agree. cbn [w_files w_docs w_next files docs next]. rewrite A2, Hfx. auto.
  - unfold held. rewrite A1, held_find by apply (i_fid s Hi). fold (find_file s f). destruct (find_file s f) as [x|] eqn:Ex; [|contradiction].
    destruct (f_held x) eqn:Eh; [|contradiction]. cbn [fst snd]. split; [reflexivity|]. unfold agree, collect.
    cbn [w_files w_docs w_next files docs next]. split; [|auto].
    pose proof (held_kept {| files := map (dropped f) (files s); docs := docs s; mapping := mapping s; next := next s |}) as Hk.
    cbn [files] in Hk. rewrite Hk, held_dropped. reflexivity.
  - rewrite A2. fold (find_doc s d). destruct (find_doc s d) as [y|] eqn:Ey; [|contradiction]. apply find_doc_in in Ey. destruct Ey as [_ Ed].
    cbn [fst snd]. split; [reflexivity|]. unfold close_document. rewrite Ed. cif; unfold agree; cbn [collect w_files w_docs w_next files docs next]; [auto|].
    split; [|auto]. rewrite A1. symmetry.
    apply (held_kept {| files := files s; docs := filter (fun z => negb (d_id z =? d)) (docs s); mapping := match find_file s (d_file y) with Some x => erase (mapping s) (f_address x) | None => mapping s end; next := next s |}).
Qed.

Lemma run_agrees : forall cs s w, (forall a, ~ In (NewFile a false) cs) -> AllReadable s -> Inv s -> Live s -> agree s w ->
  ~ In ANotAllowed (snd (run s cs)) -> snd (run s cs) = snd (expect_run w cs).
Proof.
  induction cs as [|c t IH]; intros s w Hc Hr Hi Hl Ha Hok; [reflexivity|]. cbn [run expect_run] in *.
  assert (Hc1 : forall a, c <> NewFile a false) by (intros a ->; apply (Hc a); left; reflexivity).
  assert (Hc2 : forall a, ~ In (NewFile a false) t) by (intros a Hin; apply (Hc a); right; exact Hin).
  pose proof (step_agrees s w c Hc1 Hr Hi Hl Ha) as Hst. pose proof (inv_step s c Hi) as Hi1.
  pose proof (live_step s c Hc1 Hr Hi Hl) as Hl1. pose proof (readable_step s c Hc1 Hr) as Hr1.
  destruct (step s c) as [s1 a], (expect w c) as [w1 b]. cbn [fst snd] in *.
  specialize (IH s1 w1 Hc2 Hr1 Hi1 Hl1). destruct (run s1 t) as [s2 l], (expect_run w1 t) as [w2 m]. cbn [snd] in *.
  assert (Ha1 : a <> ANotAllowed) by (intros ->; apply Hok; left; reflexivity). destruct (Hst Ha1) as [-> Hag].
  f_equal. apply IH; [exact Hag|]. intros Hin. apply Hok. right. exact Hin.
Qed.

(** ** An address that stays in the map *)
Definition stale (s : state) (a : N) : Prop := exists d, lookup (mapping s) a = Some d /\ find_doc s d = None.

Lemma stale_step : forall s c a, Inv s -> stale s a -> stale (fst (step s c)) a.
Proof.
  intros s c a Hi (d & Hl & Hd). pose proof (i_mnext s Hi a d Hl) as Hlt. pose proof (find_doc_none s d Hd) as Hno.
  assert (Hnone : forall l, (forall y, In y l -> d_id y <> d) -> find (fun x => d_id x =? d) l = None).
  { intros l H. destruct (find _ l) as [y|] eqn:E; [|reflexivity]. apply find_some in E. destruct E as [E1 E2]. exfalso. apply (H y E1). lia. }
  destruct c as [b r|f|f|e]; cbn [step].
  - destruct (address_used s b); cbn [fst]; exists d; auto.
  - destruct (find_file s f) as [x|] eqn:Ex; [|exists d; auto]. destruct (f_held x); [|exists d; auto]. unfold open_document.
    destruct (lookup (mapping s) (f_address x)) as [e|] eqn:El.
    + destruct (find_doc s e); cbn [fst]; exists d; [|auto]. split; [exact Hl|]. unfold find_doc. cbn [docs]. apply Hnone.
      intros y Hy. apply in_map_iff in Hy. destruct Hy as (z & <- & Hz). rewrite with_handles_id. apply Hno, Hz.
    + assert (Hne : (a =? f_address x) = false) by (destruct (a =? f_address x) eqn:E; [assert (a = f_address x) by lia; congruence|reflexivity]).
      destruct (f_readable x); cbn [fst]; exists d; cbn [mapping]; rewrite lookup_assign, Hne; (split; [exact Hl|]); unfold find_doc; cbn [docs]; apply Hnone; auto.
      intros y [<-|Hy]; [cbn; lia|apply Hno, Hy].
  - destruct (find_file s f) as [x|]; [|exists d; auto]. destruct (f_held x); cbn [fst collect]; exists d; auto.
  - destruct (find_doc s e) as [y|] eqn:Ey; [|exists d; auto]. cbn [fst]. unfold close_document. cif.
    + exists d. split; [exact Hl|]. unfold find_doc. cbn [docs]. apply Hnone.
      intros z Hz. apply in_map_iff in Hz. destruct Hz as (w & <- & Hw). rewrite with_handles_id. apply Hno, Hw.
    + exists d. cbn [collect mapping]. apply find_doc_in in Ey. destruct Ey as [Hy He].
      split; [|unfold find_doc; cbn [collect docs]; apply Hnone; intros z Hz; apply filter_In in Hz; apply Hno, Hz].
      destruct (i_map s Hi y Hy) as (x & Hx & Hf & Hlx).
      destruct (find_file s (d_file y)) as [x'|] eqn:Ef; [|exact Hl]. apply find_file_in in Ef. destruct Ef as [Hx' Hf'].
      assert (x' = x) by (apply (nodup_map_inj _ f_id (files s)); [apply (i_fid s Hi)|assumption|assumption|congruence]). subst x'.
      rewrite lookup_erase. destruct (a =? f_address x) eqn:E; [|exact Hl]. exfalso. assert (a = f_address x) by lia. subst a.
      rewrite Hl in Hlx. injection Hlx as E1. apply (Hno y Hy). congruence.
Qed.

Lemma stale_run : forall cs s a, Inv s -> stale s a -> stale (fst (run s cs)) a.
Proof.
  induction cs as [|c t IH]; intros s a Hi H; [exact H|]. cbn [run]. pose proof (stale_step s c a Hi H) as H1. pose proof (inv_step s c Hi) as Hi1.
  destruct (step s c) as [s1 x]. specialize (IH s1 a Hi1 H1). destruct (run s1 t). exact IH.
Qed.

Lemma run_app : forall c1 c2 s, run s (c1 ++ c2) = (fst (run (fst (run s c1)) c2), snd (run s c1) ++ snd (run (fst (run s c1)) c2)).
Proof.
  induction c1 as [|c t IH]; intros c2 s; cbn [app run fst snd]; [destruct (run s c2); reflexivity|].
  destruct (step s c) as [s1 a]. rewrite IH. destruct (run s1 t) as [s2 l]. reflexivity.
Qed.

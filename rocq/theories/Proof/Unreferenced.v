(** Removing unreferenced objects: the marking loop computes reachability. *)
From Coq Require Import List NArith ZArith Bool Lia.
From Verif.Model Require Import Base SMap Object Xref Chain Merge Unreferenced.
From Verif.Spec Require Import Merge Unreferenced.
From Verif.Proof Require Import Tac.
Import ListNotations.
Local Open Scope N_scope.

(** ** induction over objects *)
Section ObjInd.
Variable P : obj -> Prop.
Hypothesis Harr : forall l, Forall P l -> P (OArr l).
Hypothesis Hdict : forall l, Forall (fun e => P (snd e)) l -> P (ODict l).
Hypothesis Hstream : forall l d, Forall (fun e => P (snd e)) l -> P (OStream l d).
Hypothesis Hleaf : forall o, match o with OArr _ | ODict _ | OStream _ _ => False | _ => True end -> P o.
Fixpoint obj_induction (o : obj) : P o :=
  match o with
  | OArr l => Harr l ((fix go l : Forall P l := match l with [] => Forall_nil _ | x :: t => Forall_cons x (obj_induction x) (go t) end) l)
  | ODict l => Hdict l ((fix go (l : list (list N * obj)) : Forall (fun e => P (snd e)) l :=
                           match l with [] => Forall_nil _ | x :: t => Forall_cons x (obj_induction (snd x)) (go t) end) l)
  | OStream l d => Hstream l d ((fix go (l : list (list N * obj)) : Forall (fun e => P (snd e)) l :=
                           match l with [] => Forall_nil _ | x :: t => Forall_cons x (obj_induction (snd x)) (go t) end) l)
  | o => Hleaf o I
  end.
End ObjInd.

Lemma refs_mentions : forall n g o, In (n, g) (refs o) <-> mentions n g o.
Proof.
  intros n g. induction o as [l IH|l IH|l d IH|o Ho] using obj_induction; cbn [refs].
  - rewrite in_flat_map. split.
    + intros (o & Hin & H). rewrite Forall_forall in IH. apply (m_arr n g l o Hin). apply IH; assumption.
    + intros H. inversion H as [|? o Hin Hm| |]; subst. exists o. split; [exact Hin|]. rewrite Forall_forall in IH. apply IH; assumption.
  - rewrite in_flat_map. split.
    + intros ([k o] & Hin & H). rewrite Forall_forall in IH. apply (m_dict n g l k o Hin). apply (IH (k, o)); assumption.
    + intros H. inversion H as [| |? k o Hin Hm|]; subst. exists (k, o). split; [exact Hin|]. rewrite Forall_forall in IH. apply (IH (k, o)); assumption.
  - rewrite in_flat_map. split.
    + intros ([k o] & Hin & H). rewrite Forall_forall in IH. apply (m_stream n g l d k o Hin). apply (IH (k, o)); assumption.
    + intros H. inversion H as [| | |? ? k o Hin Hm]; subst. exists (k, o). split; [exact Hin|]. rewrite Forall_forall in IH. apply (IH (k, o)); assumption.
  - destruct o; cbn [refs] in *; try tauto; split; intros H; try (destruct H; fail); try (inversion H; fail).
    + destruct H as [H|[]]. inversion H; subst. constructor.
    + inversion H; subst. left. reflexivity.
Qed.

Lemma in_use_describes : forall e, entry_in_use e = true <-> describes_object e.
Proof. intros e. unfold entry_in_use, describes_object. destruct (xdata e); split; intros; try tauto; try discriminate; auto. Qed.
Lemma used_type_spec : forall e, used_type e = true <-> forall next, xdata e <> KFree next.
Proof. intros e. unfold used_type. destruct (xdata e) as [nx| |]; split; intros H; try discriminate; try reflexivity. exfalso. apply (H nx). reflexivity. Qed.
Lemma mem_in : forall n l, mem n l = true <-> In n l.
Proof. intros n l. unfold mem. rewrite existsb_exists. split; [intros (x & H & E); apply N.eqb_eq in E; subst; exact H|intros H; exists n; split; [exact H|apply N.eqb_refl]]. Qed.

Definition items (c : list usection) : list (xentry * obj) := flat_map u_items c.
Lemma in_items : forall c p, In p (items c) <-> exists s, In s c /\ In p (u_items s).
Proof. intros c p. unfold items. rewrite in_flat_map. reflexivity. Qed.
Lemma distinct_same : forall (l : list (xentry * obj)) p q, NoDup (map (fun p => xnum (fst p)) l) -> In p l -> In q l -> xnum (fst p) = xnum (fst q) -> p = q.
Proof.
  induction l as [|x l IH]; intros p q Hd Hp Hq E; [destruct Hp|]. cbn [map] in Hd. inversion Hd as [|? ? Hn Hd']; subst.
  destruct Hp as [->|Hp], Hq as [->|Hq]; try reflexivity.
  - exfalso. apply Hn. rewrite E. apply (in_map (fun p => xnum (fst p))). exact Hq.
  - exfalso. apply Hn. rewrite <- E. apply (in_map (fun p => xnum (fst p))). exact Hp.
  - apply IH; assumption.
Qed.
Lemma distinct_tail : forall s c, numbers_distinct (s :: c) -> numbers_distinct c.
Proof.
  intros s c H. unfold numbers_distinct in *. cbn [flat_map] in H. rewrite map_app in H. clear - H. induction (map (fun p => xnum (fst p)) (u_items s)); [exact H|].
  inversion H; subst. auto.
Qed.
Lemma item_find_some : forall n l p, item_find n l = Some p -> In p l /\ xnum (fst p) = n.
Proof. intros n l p H. apply find_some in H. destruct H as [H1 H2]. split; [exact H1|lia]. Qed.
Lemma item_find_none : forall n l p, item_find n l = None -> In p l -> xnum (fst p) <> n.
Proof. intros n l p H Hin E. apply (find_none _ _ H) in Hin. cbn beta in Hin. lia. Qed.
Lemma item_entry_spec : forall c n g p, numbers_distinct c -> (item_entry n g c = Some p <-> In p (items c) /\ xnum (fst p) = n /\ xgen (fst p) = g).
Proof.
  induction c as [|s c IH]; intros n g p Hd; cbn [item_entry].
  - split; [discriminate|intros ([] & _)].
  - specialize (IH n g p (distinct_tail _ _ Hd)). unfold items in *. cbn [flat_map]. rewrite in_app_iff.
    destruct (item_find n (u_items s)) as [q|] eqn:E.
    + apply item_find_some in E. destruct E as [E1 E2].
      assert (U : forall r, In r (u_items s ++ flat_map u_items c) -> xnum (fst r) = n -> r = q).
      { intros r Hr En. apply (distinct_same (u_items s ++ flat_map u_items c)); [exact Hd|exact Hr|apply in_or_app; left; exact E1|congruence]. }
      destruct (xgen (fst q) =? g) eqn:Eg.
      * split; [intros H; inversion H; subst; repeat split; [left; exact E1|apply N.eqb_eq; exact Eg]|]. intros (H1 & H2 & H3).
        rewrite (U p); [reflexivity|apply in_or_app; exact H1|exact H2].
      * split.
        { intros H. apply IH in H. destruct H as (H1 & H2 & H3). split; [right; exact H1|split; assumption]. }
        intros (H1 & H2 & H3). assert (p = q) by (apply U; [apply in_or_app; exact H1|exact H2]). subst p. exfalso. lia.
    + split.
      * intros H. apply IH in H. destruct H as (H1 & H2). split; [right; exact H1|exact H2].
      * intros ([H1|H1] & H2 & H3); [exfalso; exact (item_find_none _ _ _ E H1 H2)|]. apply IH. auto.
Qed.
Lemma resolves_spec : forall c n g, numbers_distinct c -> (resolves c n g = true <-> exists o, has_object c n g o).
Proof.
  intros c n g Hd. unfold resolves. split.
  - destruct (item_entry n g c) as [[e o]|] eqn:E; [|discriminate]. intros H. apply item_entry_spec in E; [|exact Hd]. destruct E as (E1 & E2 & E3). cbn [fst] in *.
    apply in_items in E1. destruct E1 as (s & Hs & Hin). exists o, s, e. repeat split; try assumption. apply in_use_describes. exact H.
  - intros (o & s & e & Hs & Hin & En & Eg & Hu). assert (E : item_entry n g c = Some (e, o)).
    { apply item_entry_spec; [exact Hd|]. split; [apply in_items; exists s; auto|]. split; assumption. }
    rewrite E. apply in_use_describes. exact Hu.
Qed.
Lemma marks_spec : forall c o n, numbers_distinct c -> (In n (marks c o) <-> exists g, mentions n g o /\ exists o', has_object c n g o').
Proof.
  intros c o n Hd. unfold marks. rewrite in_flat_map. split.
  - intros ([n' g] & Hr & H). cbn [fst snd] in H. destruct (resolves c n' g) eqn:E; [|destruct H]. destruct H as [<-|[]]. exists g. split; [apply refs_mentions; exact Hr|].
    apply resolves_spec; assumption.
  - intros (g & Hm & Ho). exists (n, g). split; [apply refs_mentions; exact Hm|]. cbn [fst snd]. apply resolves_spec in Ho; [|exact Hd]. rewrite Ho. left. reflexivity.
Qed.
Lemma first_item_spec : forall c n p, first_item c n = Some p -> In p (items c) /\ xnum (fst p) = n.
Proof. intros c n p H. unfold first_item in H. apply find_some in H. destruct H as [H1 H2]. split; [exact H1|]. apply andb_prop in H2. lia. Qed.
Lemma first_item_none : forall c n p, first_item c n = None -> In p (items c) -> used_type (fst p) = true -> xnum (fst p) <> n.
Proof. intros c n p H Hin Hu E. apply (find_none _ _ H) in Hin. cbn beta in Hin. rewrite Hu in Hin. lia. Qed.
Lemma reference_mentions : forall c n p, numbers_distinct c -> first_item c n = Some p -> forall k, In k (marks c (reference_of p)) ->
  exists g o g' o', has_object c n g o /\ mentions k g' o /\ has_object c k g' o'.
Proof.
  intros c n [e o] Hd E k Hk. apply first_item_spec in E. destruct E as [E1 E2]. unfold reference_of in Hk. cbn [fst snd] in *. destruct (entry_in_use e) eqn:Eu; [|destruct Hk].
  apply marks_spec in Hk; [|exact Hd]. destruct Hk as (g' & Hm & o' & Ho'). apply in_items in E1. destruct E1 as (s & Hs & Hin).
  exists (xgen e), o, g', o'. split; [exists s, e; repeat split; try assumption; apply in_use_describes; exact Eu|]. auto.
Qed.

(** ** the marking loop *)
Section Marking.
Variable c : list usection.
Hypothesis Hd : numbers_distinct c.
Definition covered (used : list N) (n : N) : Prop := forall p, first_item c n = Some p -> incl (marks c (reference_of p)) used.

Lemma pass_spec : forall order used visited found used' visited' found',
  pass c order used visited found = (used', visited', found') ->
  (forall n, In n used -> reachable c n) -> (forall n, In n visited -> covered used n) -> NoDup visited ->
  (forall n, In n used' -> reachable c n) /\ incl used used' /\ (forall n, In n visited' -> covered used' n) /\ incl visited visited' /\ NoDup visited' /\
  incl visited' (visited ++ order) /\
  (found = true -> found' = true) /\
  (found' = false -> used' = used /\ visited' = visited /\ forall n, In n order -> In n used -> In n visited \/ first_item c n = None) /\
  (found' = true -> found = false -> (List.length visited < List.length visited')%nat).
Proof.
  induction order as [|n order IH]; intros used visited found used' visited' found' H Hr Hv Hn; cbn [pass] in H.
  - inversion H; subst. rewrite app_nil_r. repeat split; auto using incl_refl; try congruence. intros k [].
  - destruct (mem n used && negb (mem n visited)) eqn:E.
    + apply andb_prop in E. destruct E as [E1 E2]. apply mem_in in E1.
      assert (E3 : ~ In n visited) by (intros Hin; apply mem_in in Hin; rewrite Hin in E2; discriminate).
      destruct (first_item c n) as [p|] eqn:Ef.
      * specialize (IH _ _ _ _ _ _ H). destruct IH as (I1 & I2 & I3 & I4 & I5 & I6 & I7 & I8 & I9).
        -- intros k Hk. apply in_app_or in Hk. destruct Hk as [Hk|Hk]; [|apply Hr; exact Hk].
           destruct (reference_mentions c n p Hd Ef k Hk) as (g & o & g' & o' & A & B & D). apply (r_step c n g o k g' o' (Hr n E1) A B D).
        -- intros k [->|Hk] q Hq x Hx.
           ++ rewrite Ef in Hq. inversion Hq; subst. apply in_or_app. left. exact Hx.
           ++ apply in_or_app. right. exact (Hv k Hk q Hq x Hx).
        -- constructor; assumption.
        -- assert (Ht : found' = true) by (apply I7; reflexivity). subst found'.
           split; [exact I1|]. split; [intros x Hx; apply I2; apply in_or_app; right; exact Hx|]. split; [exact I3|].
           split; [intros x Hx; apply I4; right; exact Hx|]. split; [exact I5|]. split.
           { intros x Hx. apply I6 in Hx. destruct Hx as [<-|Hx]; [apply in_or_app; right; left; reflexivity|]. apply in_app_or in Hx. apply in_or_app.
             destruct Hx; [left; assumption|right; right; assumption]. }
           split; [reflexivity|]. split; [discriminate|]. intros _ _.
           assert (G := NoDup_incl_length (NoDup_cons n E3 Hn) I4). cbn [List.length] in G. lia.
      * specialize (IH _ _ _ _ _ _ H Hr Hv Hn). destruct IH as (I1 & I2 & I3 & I4 & I5 & I6 & I7 & I8 & I9).
        repeat split; try assumption.
        -- intros x Hx. apply I6 in Hx. apply in_app_or in Hx. apply in_or_app. destruct Hx; [left; assumption|right; right; assumption].
        -- apply I8; assumption.
        -- apply I8; assumption.
        -- intros k [->|Hk] Hu; [right; exact Ef|]. destruct (I8 H0) as (_ & _ & G). apply G; assumption.
    + specialize (IH _ _ _ _ _ _ H Hr Hv Hn). destruct IH as (I1 & I2 & I3 & I4 & I5 & I6 & I7 & I8 & I9).
      repeat split; try assumption.
      * intros x Hx. apply I6 in Hx. apply in_app_or in Hx. apply in_or_app. destruct Hx; [left; assumption|right; right; assumption].
      * apply I8; assumption.
      * apply I8; assumption.
      * intros k [->|Hk] Hu; [|destruct (I8 H0) as (_ & _ & G); apply G; assumption]. left. apply mem_in in Hu. rewrite Hu in E. cbn [andb] in E.
        apply mem_in. destruct (mem k visited); [reflexivity|discriminate].
Qed.
Lemma mark_all_spec : forall fuel order used visited, (forall n, In n used -> reachable c n) -> (forall n, In n visited -> covered used n) -> NoDup visited -> incl visited order ->
  (List.length order < fuel + List.length visited)%nat ->
  exists used', mark_all fuel c order used visited = Ok used' /\ (forall n, In n used' -> reachable c n) /\ incl used used' /\
    forall n, In n order -> In n used' -> covered used' n.
Proof.
  induction fuel as [|fuel IH]; intros order used visited Hr Hv Hn Hi Hf.
  - exfalso. assert (G := NoDup_incl_length Hn Hi). lia.
  - cbn [mark_all]. destruct (pass c order used visited false) as [[used' visited'] found'] eqn:E.
    destruct (pass_spec _ _ _ _ _ _ _ E Hr Hv Hn) as (I1 & I2 & I3 & I4 & I5 & I6 & I7 & I8 & I9).
    destruct found'.
    + destruct (IH order used' visited' I1 I3 I5) as (u & E1 & E2 & E3 & E4).
      * intros x Hx. apply I6 in Hx. apply in_app_or in Hx. destruct Hx as [Hx|Hx]; [apply Hi; exact Hx|exact Hx].
      * specialize (I9 eq_refl eq_refl). lia.
      * exists u. split; [exact E1|]. split; [exact E2|]. split; [intros x Hx; apply E3, I2, Hx|exact E4].
    + destruct (I8 eq_refl) as (-> & -> & G). exists used. split; [reflexivity|]. split; [exact I1|]. split; [exact I2|].
      intros n Ho Hu. destruct (G n Ho Hu) as [H|H]; [exact (I3 n H)|]. intros p Hp. congruence.
Qed.
End Marking.

Lemma stream_roots_spec : forall c l r, stream_roots c l = Ok r -> forall n, In n r <-> exists e o i, In (e, o) l /\ xdata e = KComp n i.
Proof.
  intros c. induction l as [|[e o] l IH]; intros r H n; cbn [stream_roots fst] in H.
  - inversion H; subst. split; [intros []|]. intros (e & o & i & [] & _).
  - assert (Skip : forall r, stream_roots c l = Ok r -> (forall m i, xdata e <> KComp m i) -> In n r <-> exists e' o' i, In (e', o') ((e, o) :: l) /\ xdata e' = KComp n i).
    { intros r' Hr Hne. rewrite (IH _ Hr n). split; intros (e' & o' & i & Hin & E); exists e', o', i; (split; [|exact E]).
      - right. exact Hin.
      - destruct Hin as [Hin|Hin]; [inversion Hin; subst; exfalso; exact (Hne n i E)|exact Hin]. }
    destruct (xdata e) as [nx|off u|sn si] eqn:Ex; [apply Skip; [exact H|discriminate]|apply Skip; [exact H|discriminate]|]. clear Skip.
    destruct (item_entry sn 0 c); [|discriminate]. apply rbind_ok in H. destruct H as (t & Ht & H). inversion H; subst. cbn [In]. rewrite (IH _ Ht n). split.
    + intros [<-|(e' & o' & i & Hin & E)]; [exists e, o, si; split; [left; reflexivity|exact Ex]|exists e', o', i; split; [right; exact Hin|exact E]].
    + intros (e' & o' & i & [Hin|Hin] & E); [inversion Hin; subst; left; congruence|right; exists e', o', i; auto].
Qed.
Lemma roots_spec : forall c l r, numbers_distinct c -> incl l c -> roots c l = Ok r ->
  (forall n, In n r -> reachable c n) /\
  (forall s n g o, In s l -> u_kind s = STable -> mentions n g (ODict (u_trailer s)) -> has_object c n g o -> In n r) /\
  (forall s n, In s l -> u_kind s = SStream -> u_self s = Some n -> In n r) /\
  (forall s e o n i, In s l -> u_kind s = SStream -> In (e, o) (u_items s) -> xdata e = KComp n i -> In n r).
Proof.
  intros c l r Hd. revert r. induction l as [|s l IH]; intros r Hi H; cbn [roots] in H.
  - inversion H; subst. repeat split; intros; try contradiction; exfalso; auto.
  - apply rbind_ok in H. destruct H as (a & Ha & H). apply rbind_ok in H. destruct H as (b & Hb & H). inversion H; subst. clear H.
    destruct (IH b (fun x Hx => Hi x (or_intror Hx)) Hb) as (I1 & I2 & I3 & I4).
    assert (Hs : In s c) by (apply Hi; left; reflexivity).
    assert (A : (forall n, In n a -> reachable c n) /\
      (forall n g o, u_kind s = STable -> mentions n g (ODict (u_trailer s)) -> has_object c n g o -> In n a) /\
      (forall n, u_kind s = SStream -> u_self s = Some n -> In n a) /\
      (forall e o n i, u_kind s = SStream -> In (e, o) (u_items s) -> xdata e = KComp n i -> In n a)).
    { unfold section_roots in Ha. destruct (u_kind s) eqn:Ek.
      - apply Ok_inj in Ha || inversion Ha; subst. split; [|split; [|split; intros; discriminate]].
        + intros n Hn. apply marks_spec in Hn; [|exact Hd]. destruct Hn as (g & Hm & o & Ho). exact (r_trailer c s n g o Hs Ek Hm Ho).
        + intros n g o _ Hm Ho. apply marks_spec; [exact Hd|]. exists g. split; [exact Hm|]. exists o. exact Ho.
      - apply rbind_ok in Ha. destruct Ha as (t & Ht & Ha). inversion Ha; subst. clear Ha. assert (T := stream_roots_spec _ _ _ Ht).
        assert (Q : forall n, In n (match u_self s with Some n => n :: t | None => t end) <-> u_self s = Some n \/ In n t).
        { intros n. destruct (u_self s) as [m|]; cbn [In]; split; [intros [E|E]; [left; congruence|right; exact E]|intros [E|E]; [left; congruence|right; exact E]|intros E; right; exact E|intros [E|E]; [discriminate|exact E]]. }
        split; [|split; [intros; discriminate|split]].
        + intros n Hn. apply Q in Hn. destruct Hn as [E|Hn]; [exact (r_self c s n Hs Ek E)|]. apply T in Hn. destruct Hn as (e & o & i & Hin & E). exact (r_objects c s e o n i Hs Ek Hin E).
        + intros n _ E. apply Q. left. exact E.
        + intros e o n i _ Hin E. apply Q. right. apply T. exists e, o, i. auto.
      - inversion Ha; subst. repeat split; intros; try contradiction; try discriminate. }
    destruct A as (A1 & A2 & A3 & A4). split; [|split; [|split]].
    + intros n Hn. apply in_app_or in Hn. destruct Hn; auto.
    + intros s' n g o [<-|Hin] Hk Hm Ho; apply in_or_app; [left; eapply A2; eauto|right; eapply I2; eauto].
    + intros s' n [<-|Hin] Hk E; apply in_or_app; [left; apply A3; auto|right; eapply I3; eauto].
    + intros s' e o n i [<-|Hin] Hk Hin2 E; apply in_or_app; [left; eapply A4; eauto|right; eapply I4; eauto].
Qed.

(** ** removal *)
Lemma keeps_ext : forall (k1 k2 : xentry -> Prop) c c', (forall s p, In s c -> In p (u_items s) -> (k1 (fst p) <-> k2 (fst p))) -> keeps k1 c c' -> keeps k2 c c'.
Proof.
  intros k1 k2 c c' Hk H. induction H as [|s s' c c' (A & B & D & E) H IH]; constructor.
  - repeat split; try assumption; intros.
    + apply E in H0. apply H0.
    + apply E in H0. destruct H0 as [H0 H1]. apply (Hk s p (or_introl eq_refl) H0). exact H1.
    + destruct H0 as [H0 H1]. apply E. split; [exact H0|]. apply (Hk s p (or_introl eq_refl) H0). exact H1.
  - apply IH. intros s0 p Hs Hp. apply (Hk s0 p (or_intror Hs) Hp).
Qed.
Lemma keeps_refl : forall (k : xentry -> Prop) c, (forall s p, In s c -> In p (u_items s) -> k (fst p)) -> keeps k c c.
Proof.
  intros k. induction c as [|s c IH]; intros H; constructor.
  - repeat split; intros; try tauto. apply (H s p (or_introl eq_refl) H0).
  - apply IH. intros s0 p Hs. apply (H s0 p (or_intror Hs)).
Qed.
Lemma keeps_trans : forall k1 k2 a b c, keeps k1 a b -> keeps k2 b c -> keeps (fun e => k1 e /\ k2 e) a c.
Proof.
  intros k1 k2 a b c H. revert c. induction H as [|s s' a b (A & B & D & E) H IH]; intros c H2; inversion H2 as [|? s2 ? c2 (A2 & B2 & D2 & E2) H3]; subst; constructor; [|apply IH; exact H3].
  repeat split; try congruence; intros.
  - apply E2 in H0. destruct H0 as [H0 _]. apply E in H0. apply H0.
  - apply E2 in H0. destruct H0 as [H0 _]. apply E in H0. apply H0.
  - apply E2 in H0. apply H0.
  - destruct H0 as (H0 & H1 & H4). apply E2. split; [|exact H4]. apply E. auto.
Qed.
Lemma premove_in : forall n (l : list (xentry * obj)) p, In p (premove n l) <-> In p l /\ xnum (fst p) <> n.
Proof. intros n l p. unfold premove. rewrite filter_In. split; intros [H1 H2]; (split; [exact H1|lia]). Qed.
Lemma remove_entry_keeps : forall n c, numbers_distinct c -> keeps (fun e => xnum e <> n) c (remove_entry n c) /\ numbers_distinct (remove_entry n c).
Proof.
  intros n. induction c as [|s c IH]; intros Hd; cbn [remove_entry]; [split; [constructor|exact Hd]|].
  destruct (IH (distinct_tail _ _ Hd)) as [I1 I2]. destruct (item_find n (u_items s)) as [q|] eqn:E.
  - apply item_find_some in E. destruct E as [E1 E2]. split.
    + constructor; [cbn [u_kind u_self u_trailer u_items]; split; [reflexivity|]; split; [reflexivity|]; split; [reflexivity|]; apply premove_in|].
      apply (keeps_refl (fun e => xnum e <> n)). intros s0 p Hs Hp En. assert (p = q).
      { apply (distinct_same (items (s :: c))); [exact Hd|apply in_items; exists s0; split; [right; exact Hs|exact Hp]|apply in_items; exists s; split; [left; reflexivity|exact E1]|congruence]. }
      subst p. unfold numbers_distinct in Hd. cbn [flat_map] in Hd. rewrite map_app in Hd. clear - Hd E1 Hs Hp.
      induction (u_items s) as [|x l IH]; [destruct E1|]. cbn [map app] in Hd. inversion Hd as [|? ? Hn Hd']; subst. destruct E1 as [->|E1]; [|apply IH; assumption].
      apply Hn. apply in_or_app. right. apply (in_map (fun p => xnum (fst p))). apply in_flat_map. exists s0. split; assumption.
    + unfold numbers_distinct in *. cbn [flat_map u_items] in *. rewrite map_app in *. clear - Hd. unfold premove. induction (u_items s) as [|x l IH]; [exact Hd|].
      cbn [map app] in Hd. inversion Hd as [|? ? Hn Hd']; subst. cbn [filter]. destruct (negb (xnum (fst x) =? n)); [|apply IH; exact Hd']. cbn [map app]. constructor; [|apply IH; exact Hd'].
      intros Hin. apply Hn. apply in_app_or in Hin. apply in_or_app. destruct Hin as [Hin|Hin]; [left|right; exact Hin]. apply in_map_iff in Hin. destruct Hin as (y & Ey & Hy).
      apply filter_In in Hy. destruct Hy as [Hy _]. rewrite <- Ey. apply (in_map (fun p => xnum (fst p))). exact Hy.
  - split.
    + constructor; [|exact I1]. repeat split; intros; try tauto. apply (item_find_none _ _ _ E H).
    + unfold numbers_distinct in *. cbn [flat_map] in *. rewrite map_app in *. assert (G : incl (map (fun p => xnum (fst p)) (flat_map u_items (remove_entry n c))) (map (fun p => xnum (fst p)) (flat_map u_items c))).
      { intros x Hx. apply in_map_iff in Hx. destruct Hx as (p & <- & Hp). apply (in_map (fun p => xnum (fst p))). apply in_flat_map in Hp. destruct Hp as (s' & Hs' & Hp).
        clear - I1 Hs' Hp. induction I1 as [|a b la lb (_ & _ & _ & K) _ IH]; [destruct Hs'|]. cbn [flat_map]. apply in_or_app. destruct Hs' as [->|Hs']; [left; apply K; exact Hp|right; apply IH; exact Hs']. }
      clear - Hd I2 G. induction (map (fun p => xnum (fst p)) (u_items s)) as [|x l IH]; [exact I2|]. cbn [app] in *. inversion Hd as [|? ? Hn Hd']; subst. constructor; [|apply IH; exact Hd'].
      intros Hin. apply Hn. apply in_app_or in Hin. apply in_or_app. destruct Hin as [Hin|Hin]; [left; exact Hin|right; apply G; exact Hin].
Qed.
Lemma remove_unused_keeps : forall order used c, numbers_distinct c ->
  keeps (fun e => ~ In (xnum e) order \/ In (xnum e) used) c (remove_unused order used c) /\ numbers_distinct (remove_unused order used c).
Proof.
  intros order used. unfold remove_unused. induction order as [|n order IH]; intros c Hd; cbn [fold_left].
  - split; [|exact Hd]. apply keeps_refl. intros. left. intros [].
  - destruct (mem n used) eqn:E.
    + destruct (IH c Hd) as [I1 I2]. split; [|exact I2]. apply (keeps_ext _ _ _ _) with (2 := I1). intros s p _ _. apply mem_in in E. cbn [In]. split; [|tauto].
      intros [H|H]; [|right; exact H]. destruct (N.eq_dec n (xnum (fst p))) as [->|Hne]; [right; exact E|]. left. tauto.
    + destruct (remove_entry_keeps n c Hd) as [R1 R2]. destruct (IH _ R2) as [I1 I2]. split; [|exact I2].
      apply (keeps_ext _ _ _ _) with (2 := keeps_trans _ _ _ _ _ R1 I1). intros s p _ _. cbn [In].
      assert (En : ~ In n used) by (intros Hin; apply mem_in in Hin; congruence). split.
      * intros (H1 & [H2|H2]); [|right; exact H2]. left. intros [H|H]; [apply H1; symmetry; exact H|exact (H2 H)].
      * intros [H|H]; [|split; [intros Hx; apply En; rewrite <- Hx; exact H|right; exact H]]. split; [intros Hx; apply H; left; symmetry; exact Hx|left; tauto].
Qed.
Lemma keeps_back : forall (k : xentry -> Prop) c c' s', keeps k c c' -> In s' c' -> exists s, In s c /\ u_kind s' = u_kind s /\ u_trailer s' = u_trailer s /\
  forall p, In p (u_items s') -> In p (u_items s) /\ k (fst p).
Proof.
  intros k c c' s' K Hs'. induction K as [|a b la lb (A & B & C & D) K IH]; [destruct Hs'|]. destruct Hs' as [<-|Hs'].
  - exists a. split; [left; reflexivity|]. split; [exact A|]. split; [exact C|]. intros p Hp. apply D. exact Hp.
  - destruct (IH Hs') as (s & Hs & R). exists s. split; [right; exact Hs|exact R].
Qed.
Lemma keeps_forward : forall (k : xentry -> Prop) c c' s p, keeps k c c' -> In s c -> In p (u_items s) -> k (fst p) -> exists s', In s' c' /\ In p (u_items s').
Proof.
  intros k c c' s p K Hs Hin Hk. induction K as [|a b la lb (A & B & C & D) K IH]; [destruct Hs|]. destruct Hs as [->|Hs].
  - exists b. split; [left; reflexivity|]. apply D. split; [exact Hin|exact Hk].
  - destruct (IH Hs) as (s' & Hs' & R). exists s'. split; [right; exact Hs'|exact R].
Qed.
Lemma stream_roots_fail : forall c l, (exists r, stream_roots c l = Ok r) \/
  (stream_roots c l = Throw EObjectMissing /\ exists e o n i, In (e, o) l /\ xdata e = KComp n i /\ item_entry n 0 c = None).
Proof.
  intros c. induction l as [|[e o] l IH]; cbn [stream_roots fst]; [left; eexists; reflexivity|].
  assert (Skip : (exists r, stream_roots c l = Ok r) \/ (stream_roots c l = Throw EObjectMissing /\ exists e' o' n i, In (e', o') ((e, o) :: l) /\ xdata e' = KComp n i /\ item_entry n 0 c = None)).
  { destruct IH as [IH|(IH & e' & o' & n & i & A & B)]; [left; exact IH|right; split; [exact IH|]]. exists e', o', n, i. split; [right; exact A|exact B]. }
  destruct (xdata e) as [| |sn si] eqn:E; try exact Skip. destruct (item_entry sn 0 c) eqn:Ei.
  - destruct Skip as [(r & ->)|(-> & R)]; cbn [rbind]; [left; eexists; reflexivity|right; split; [reflexivity|exact R]].
  - right. split; [reflexivity|]. exists e, o, sn, si. split; [left; reflexivity|]. auto.
Qed.
Lemma roots_fail : forall c l, (exists r, roots c l = Ok r) \/
  (roots c l = Throw EObjectMissing /\ exists s e o n i, In s l /\ In (e, o) (u_items s) /\ xdata e = KComp n i /\ item_entry n 0 c = None).
Proof.
  intros c. induction l as [|s l IH]; cbn [roots]; [left; eexists; reflexivity|].
  assert (A : (exists r, section_roots c s = Ok r) \/ (section_roots c s = Throw EObjectMissing /\ exists e o n i, In (e, o) (u_items s) /\ xdata e = KComp n i /\ item_entry n 0 c = None)).
  { unfold section_roots. destruct (u_kind s); try (left; eexists; reflexivity). destruct (stream_roots_fail c (u_items s)) as [(r & ->)|(-> & R)]; [left; eexists; reflexivity|right; auto]. }
  destruct A as [(a & ->)|(-> & e & o & n & i & R)]; cbn [rbind].
  - destruct IH as [(b & ->)|(-> & s' & e & o & n & i & R1 & R)]; cbn [rbind]; [left; eexists; reflexivity|right; split; [reflexivity|]]. exists s', e, o, n, i. split; [right; exact R1|exact R].
  - right. split; [reflexivity|]. exists s, e, o, n, i. split; [left; reflexivity|exact R].
Qed.

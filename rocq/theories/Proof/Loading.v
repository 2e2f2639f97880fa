(** Reading objects when they are asked for. *)
From Coq Require Import List NArith ZArith Bool Lia String.
From Coq Require Import List.
From Verif.Model Require Import Base Object Xref Loading.
From Verif.Spec Require Import Loading.
From Verif.Proof Require Import Tac.
Import ListNotations.
Local Open Scope N_scope.

Definition entries (st : lstate) : list (list xentry) := map (map l_entry) st.

Lemma entries_opened : forall c, entries (opened c) = c.
Proof.
  induction c as [|l c IH]; [reflexivity|]. unfold entries, opened in *. cbn [map]. rewrite IH. f_equal.
  rewrite map_map. cbn [unread l_entry]. apply map_id.
Qed.

Lemma slot_entry : forall n l, option_map l_entry (slot_in n l) = find (fun e => xnum e =? n) (map l_entry l).
Proof. induction l as [|s l IH]; [reflexivity|]. cbn [slot_in find map]. destruct (xnum (l_entry s) =? n); [reflexivity|exact IH]. Qed.

Lemma slot_num : forall n l s, slot_in n l = Some s -> xnum (l_entry s) = n /\ In s l.
Proof. intros n l s H. apply find_some in H. destruct H as [H1 H2]. split; [lia|exact H1]. Qed.

Lemma newest_some : forall n g st i, newest_in n g st = Some i -> exists s, at_slot i n st = Some s /\ entry_of (entries st) n g = Some (l_entry s) /\ xnum (l_entry s) = n /\ xgen (l_entry s) = g.
Proof.
  induction st as [|l st IH]; intros i H; [discriminate|]. cbn [newest_in] in H. change (entries (l :: st)) with (map l_entry l :: entries st). cbn [entry_of]. rewrite <- slot_entry.
  destruct (slot_in n l) as [s|] eqn:E; cbn [option_map].
  - destruct (xgen (l_entry s) =? g) eqn:G.
    + injection H as <-. exists s. cbn [at_slot nth_error]. unfold at_slot. cbn. split; [exact E|]. split; [reflexivity|]. split; [apply slot_num in E; apply E|lia].
    + destruct (newest_in n g st) as [j|] eqn:Ej; [|discriminate]. injection H as <-. exact (IH j eq_refl).
  - destruct (newest_in n g st) as [j|] eqn:Ej; [|discriminate]. injection H as <-. exact (IH j eq_refl).
Qed.
Lemma newest_none : forall n g st, newest_in n g st = None <-> entry_of (entries st) n g = None.
Proof.
  induction st as [|l st IH]; [split; reflexivity|]. change (entries (l :: st)) with (map l_entry l :: entries st). cbn [newest_in entry_of]. rewrite <- slot_entry.
  destruct (slot_in n l) as [s|]; cbn [option_map]; [destruct (xgen (l_entry s) =? g); [split; discriminate|]|]; rewrite <- IH; destruct (newest_in n g st); cbn [option_map]; split; intros; congruence || discriminate.
Qed.
Lemma newest_ext : forall n g st st', entries st = entries st' -> newest_in n g st = newest_in n g st'.
Proof.
  induction st as [|l st IH]; intros st' H; destruct st' as [|l' st']; try discriminate; [reflexivity|].
  change (map l_entry l :: entries st = map l_entry l' :: entries st') in H. injection H as Hl Hs. cbn [newest_in]. rewrite (IH st' Hs).
  assert (E := slot_entry n l). assert (E' := slot_entry n l'). rewrite Hl in E. rewrite <- E' in E.
  destruct (slot_in n l) as [s|], (slot_in n l') as [s'|]; cbn in E; try discriminate; [|reflexivity]. injection E as ->. reflexivity.
Qed.

Lemma slot_change_in : forall n f, (forall s, l_entry (f s) = l_entry s) -> forall n' l,
  slot_in n' (change_in n f l) = if n' =? n then option_map f (slot_in n l) else slot_in n' l.
Proof.
  intros n f Hf n' l. induction l as [|s l IH]; cbn [change_in]; [destruct (n' =? n); reflexivity|].
  destruct (xnum (l_entry s) =? n) eqn:E.
  - cbn [slot_in find]. rewrite Hf. destruct (n' =? n) eqn:E'.
    + assert (n' = n) by lia. subst n'. rewrite E. reflexivity.
    + replace (xnum (l_entry s) =? n') with false by lia. reflexivity.
  - cbn [slot_in find] in *. rewrite E. destruct (xnum (l_entry s) =? n') eqn:E2.
    + replace (n' =? n) with false by lia. reflexivity.
    + exact IH.
Qed.
Lemma at_change : forall f, (forall s, l_entry (f s) = l_entry s) -> forall n st i i' n',
  at_slot i' n' (change i n f st) = if Nat.eqb i' i && (n' =? n) then option_map f (at_slot i n st) else at_slot i' n' st.
Proof.
  intros f Hf n. induction st as [|l st IH]; intros i i' n'.
  - replace (change i n f []) with (@nil (list slot)) by (destruct i; reflexivity). unfold at_slot.
    assert (Z : forall j, nth_error (@nil (list slot)) j = None) by (destruct j; reflexivity). rewrite !Z. destruct (_ && _); reflexivity.
  - destruct i as [|i]; cbn [change].
    + destruct i' as [|i']; unfold at_slot; cbn [nth_error Nat.eqb andb]; [|reflexivity]. rewrite (slot_change_in n f Hf). destruct (n' =? n); reflexivity.
    + destruct i' as [|i']; unfold at_slot in *; cbn [nth_error Nat.eqb andb]; [reflexivity|]. apply IH.
Qed.
Lemma entries_change : forall f, (forall s, l_entry (f s) = l_entry s) -> forall n st i, entries (change i n f st) = entries st.
Proof.
  intros f Hf n. assert (A : forall l, map l_entry (change_in n f l) = map l_entry l).
  { induction l as [|s l IH]; [reflexivity|]. cbn [change_in]. destruct (xnum (l_entry s) =? n); cbn [map]; [rewrite Hf; reflexivity|rewrite IH; reflexivity]. }
  induction st as [|l st IH]; intros i; destruct i as [|i]; cbn [change]; try reflexivity.
  - unfold entries. cbn [map]. rewrite A. reflexivity.
  - change (map l_entry l :: entries (change i n f st) = map l_entry l :: entries st). rewrite IH. reflexivity.
Qed.
Lemma newest_change : forall f, (forall s, l_entry (f s) = l_entry s) -> forall n st i n' g', newest_in n' g' (change i n f st) = newest_in n' g' st.
Proof. intros. apply newest_ext, entries_change. assumption. Qed.
(** every slot after a change *)
Lemma in_change_in : forall n f s l, In s (change_in n f l) -> In s l \/ exists t, slot_in n l = Some t /\ s = f t.
Proof.
  induction l as [|x l IH]; intros H; [left; exact H|]. cbn [change_in slot_in find] in *. destruct (xnum (l_entry x) =? n) eqn:E.
  - destruct H as [<-|H]; [right; exists x; auto|left; right; exact H].
  - destruct H as [<-|H]; [left; left; reflexivity|]. destruct (IH H) as [K|K]; [left; right; exact K|right; exact K].
Qed.
Lemma in_change : forall n f s st i l, In l (change i n f st) -> In s l -> (exists l', In l' st /\ In s l') \/ exists t, at_slot i n st = Some t /\ s = f t.
Proof.
  induction st as [|x st IH]; intros i l Hl Hs; [destruct i; destruct Hl|]. destruct i as [|i]; cbn [change] in Hl.
  - destruct Hl as [<-|Hl].
    + destruct (in_change_in _ _ _ _ Hs) as [K|K]; [left; exists x; split; [left; reflexivity|exact K]|right; exact K].
    + left. exists l. split; [right; exact Hl|exact Hs].
  - destruct Hl as [<-|Hl]; [left; exists x; split; [left; reflexivity|exact Hs]|].
    destruct (IH i l Hl Hs) as [(l' & K1 & K2)|K]; [left; exists l'; split; [right; exact K1|exact K2]|right; exact K].
Qed.
Lemma at_in : forall i n st s, at_slot i n st = Some s -> xnum (l_entry s) = n /\ exists l, In l st /\ In s l.
Proof.
  intros i n st s H. unfold at_slot in H. destruct (nth_error st i) as [l|] eqn:E; [|discriminate]. apply slot_num in H. destruct H as [H1 H2].
  split; [exact H1|]. exists l. split; [eapply nth_error_In; eauto|exact H2].
Qed.
Lemma at_opened : forall c i n s, at_slot i n (opened c) = Some s -> s = unread (l_entry s).
Proof.
  intros c i n s H. apply at_in in H. destruct H as (_ & l & H1 & H2). unfold opened in H1. apply in_map_iff in H1. destruct H1 as (x & <- & _).
  apply in_map_iff in H2. destruct H2 as (e & <- & _). reflexivity.
Qed.

(** ** Placing the objects of a stream *)
Definition is_free (e : xentry) : bool := match xdata e with KFree _ => true | _ => false end.
Fixpoint member (n : N) (l : list (N * obj)) : option obj := match l with [] => None | (m, o) :: r => if m =? n then Some o else member n r end.
Lemma member_in : forall n l o, member n l = Some o -> In (n, o) l.
Proof. induction l as [|[m x] l IH]; intros o H; [discriminate|]. cbn in H. destruct (m =? n) eqn:E; [left; f_equal; [lia|congruence]|right; auto]. Qed.
Lemma in_member : forall n l o, NoDup (map fst l) -> In (n, o) l -> member n l = Some o.
Proof.
  induction l as [|[m x] l IH]; intros o Hn H; [destruct H|]. cbn [member]. inversion Hn as [|? ? Hx Hl]; subst. destruct H as [H|H].
  - injection H as -> ->. rewrite N.eqb_refl. reflexivity.
  - destruct (m =? n) eqn:E; [|auto]. exfalso. apply Hx. assert (m = n) by lia. subst m. apply (in_map fst) in H. exact H.
Qed.
Definition is_some_nat (x : option nat) (i : nat) : bool := match x with Some j => Nat.eqb j i | None => false end.
Definition placed_slot (l : list (N * obj)) (st : lstate) (i : nat) (n : N) (s : slot) : slot :=
  if is_some_nat (newest_in n 0 st) i && negb (is_free (l_entry s)) then match member n l with Some o => set_reference o s | None => s end else s.
Lemma place_ok : forall l st, NoDup (map fst l) -> (forall n o, In (n, o) l -> newest_in n 0 st <> None) ->
  exists st', place l st = (Ok tt, st') /\ entries st' = entries st /\ forall i n, at_slot i n st' = option_map (placed_slot l st i n) (at_slot i n st).
Proof.
  induction l as [|[m o] l IH]; intros st Hn Hl.
  - exists st. split; [reflexivity|]. split; [reflexivity|]. intros i n. destruct (at_slot i n st) as [s|]; [|reflexivity]. cbn [option_map].
    unfold placed_slot. cbn [member]. destruct (_ && _); reflexivity.
  - cbn [place]. inversion Hn as [|? ? Hx Hl']; subst. cbn [map fst] in Hx.
    destruct (newest_in m 0 st) as [i|] eqn:Ei; [|exfalso; exact (Hl m o (or_introl eq_refl) Ei)].
    destruct (newest_some m 0 st i Ei) as (s & Hs & _ & _ & Hg). rewrite Hs.
    assert (Hm : member m l = None). { destruct (member m l) eqn:E; [|reflexivity]. exfalso. apply Hx. apply member_in in E. apply (in_map fst) in E. exact E. }
    assert (Free : is_free (l_entry s) = true -> exists st', place l st = (Ok tt, st') /\ entries st' = entries st /\
       forall i n, at_slot i n st' = option_map (placed_slot ((m, o) :: l) st i n) (at_slot i n st)).
    { intros F. destruct (IH st Hl' (fun n x H => Hl n x (or_intror H))) as (st' & E1 & E2 & E3). exists st'. split; [exact E1|]. split; [exact E2|].
      intros i' n. rewrite E3. destruct (at_slot i' n st) as [t|] eqn:Et; [|reflexivity]. cbn [option_map]. f_equal. unfold placed_slot. cbn [member].
      destruct (m =? n) eqn:E; [|reflexivity]. assert (m = n) by lia. subst n. rewrite Ei. cbn [is_some_nat].
      destruct (Nat.eqb i i') eqn:Ei'; [|reflexivity]. apply Nat.eqb_eq in Ei'. subst i'. rewrite Et in Hs. injection Hs as ->. rewrite F. reflexivity. }
    assert (Used : is_free (l_entry s) = false -> exists st', place l (change i m (set_reference o) st) = (Ok tt, st') /\ entries st' = entries st /\
       forall i n, at_slot i n st' = option_map (placed_slot ((m, o) :: l) st i n) (at_slot i n st)).
    { intros F. assert (Hf : forall s, l_entry (set_reference o s) = l_entry s) by reflexivity.
      destruct (IH (change i m (set_reference o) st) Hl') as (st' & E1 & E2 & E3).
      { intros n x H. rewrite newest_change by exact Hf. exact (Hl n x (or_intror H)). }
      exists st'. split; [exact E1|]. split; [rewrite E2; apply entries_change, Hf|]. intros i' n. rewrite E3, (at_change _ Hf). clear E3.
      destruct (Nat.eqb i' i && (n =? m)) eqn:E.
      - apply andb_prop in E. destruct E as [Ea Eb]. apply Nat.eqb_eq in Ea. assert (n = m) by lia. subst i' n. rewrite Hs. cbn [option_map]. f_equal.
        unfold placed_slot. rewrite newest_change by exact Hf. rewrite Ei. cbn [is_some_nat member]. rewrite Nat.eqb_refl, N.eqb_refl.
        change (l_entry (set_reference o s)) with (l_entry s). rewrite F, Hm. reflexivity.
      - destruct (at_slot i' n st) as [t|] eqn:Et; [|reflexivity]. cbn [option_map]. f_equal. unfold placed_slot. rewrite newest_change by exact Hf. cbn [member].
        destruct (m =? n) eqn:E4; [|reflexivity]. assert (m = n) by lia. subst n. rewrite Ei. cbn [is_some_nat].
        destruct (Nat.eqb i i') eqn:E5; [|reflexivity]. apply Nat.eqb_eq in E5. subst i'. rewrite Nat.eqb_refl, N.eqb_refl in E. discriminate. }
    unfold is_free in *. destruct (xdata (l_entry s)); auto.
Qed.

Section Keeps.
Variable c : list (list xentry).
Variable read_at : N -> N -> Z -> res obj.
Variable members : obj -> res (list (N * obj)).
Hypothesis Ord : orderly c read_at members.
Notation orig := (original c read_at members).
Notation sholds := (stream_holds c read_at members).
Notation touch := (touch read_at members).

Lemma holds_unique : forall k l l', sholds k l -> sholds k l' -> l = l'.
Proof.
  intros k l l' (e & off & u & m & d & A1 & A2 & A3 & A4) (e' & off' & u' & m' & d' & B1 & B2 & B3 & B4).
  rewrite A1 in B1. injection B1 as <-. rewrite A2 in B2. injection B2 as <- <-. rewrite A3 in B3. injection B3 as <- <-. congruence.
Qed.
Lemma entry_in : forall c' n g e, entry_of c' n g = Some e -> exists l, In l c' /\ In e l.
Proof.
  induction c' as [|l c' IH]; intros n g e H; [discriminate|]. cbn [entry_of] in H. destruct (find (fun e => xnum e =? n) l) as [x|] eqn:E.
  - destruct (xgen x =? g).
    + injection H as ->. apply find_some in E. exists l. split; [left; reflexivity|apply E].
    + destruct (IH _ _ _ H) as (l' & H1 & H2). exists l'. split; [right; exact H1|exact H2].
  - destruct (IH _ _ _ H) as (l' & H1 & H2). exists l'. split; [right; exact H1|exact H2].
Qed.
Lemma is_stream_of : forall n g e k i, entry_of c n g = Some e -> xdata e = KComp k i -> object_stream c k.
Proof. intros n g e k i H E. destruct (entry_in _ _ _ _ H) as (l & H1 & H2). exists l, e, i. auto. Qed.
Lemma orig_unique : forall n g o o', orig n g o -> orig n g o' -> o = o'.
Proof.
  intros n g o o' H H'. destruct H as [H|e nx H E|e off u o H E R|e k i l o H E S I]; destruct H' as [H'|e' nx' H' E'|e' off' u' o' H' E' R'|e' k' i' l' o' H' E' S' I'];
    try congruence; try (rewrite H in H'; injection H' as <-; congruence).
  rewrite H in H'. injection H' as <-. rewrite E in E'. injection E' as <- <-. assert (l = l') by (eapply holds_unique; eauto). subst l'.
  destruct (or_streams _ _ _ Ord k (is_stream_of _ _ _ _ _ H E)) as (l2 & S2 & N2 & _). assert (l2 = l) by (eapply holds_unique; eauto). subst l2.
  pose proof (in_member _ _ _ N2 I). pose proof (in_member _ _ _ N2 I'). congruence.
Qed.

Record keeps (changed : N -> N -> Prop) (w : world) (st : lstate) : Prop := {
  k_entries : entries st = c;
  k_objects : forall n g i s, newest_in n g st = Some i -> at_slot i n st = Some s -> is_free (l_entry s) = false ->
    (l_init s = true -> l_obj s = Some (w n g)) /\ (l_init s = false -> l_obj s = None /\ orig n g (w n g));
  k_none : forall n g, in_file c n g = false -> w n g = ONull;
  k_streams : forall k l j t, object_stream c k -> sholds k l -> newest_in k 0 st = Some j -> at_slot j k st = Some t ->
    (l_marked t = true -> l_init t = true) /\
    forall n o i s, In (n, o) l -> newest_in n 0 st = Some i -> at_slot i n st = Some s -> is_free (l_entry s) = false -> l_init s = l_marked t;
  k_stream_object : forall k, object_stream c k -> orig k 0 (w k 0);
  k_dirty : forall i n s, at_slot i n st = Some s -> l_dirty s = true -> changed n (xgen (l_entry s));
  k_free : forall i n s, at_slot i n st = Some s -> is_free (l_entry s) = true -> l_obj s = None
}.

Lemma newest_at : forall st n g i s, newest_in n g st = Some i -> at_slot i n st = Some s -> g = xgen (l_entry s) /\ entry_of (entries st) n g = Some (l_entry s).
Proof. intros st n g i s H Hs. destruct (newest_some _ _ _ _ H) as (t & Ht & He & _ & Hg). rewrite Hs in Ht. injection Ht as <-. auto. Qed.

(** the entry of a stream is in use, so it is none of the entries in the stream *)
Lemma stream_not_member : forall k l n o st i s j t, object_stream c k -> sholds k l -> entries st = c -> In (n, o) l ->
  newest_in n 0 st = Some i -> at_slot i n st = Some s -> newest_in j 0 st = Some t -> forall x off u, at_slot t j st = Some x -> xdata (l_entry x) = KUsed off u ->
  (i, n) <> (t, j).
Proof.
  intros k l n o st i s j t Hk Hl He Hin Hi Hs Hj x off u Hx Ex C. injection C as -> ->. rewrite Hs in Hx. injection Hx as ->.
  destruct (newest_at _ _ _ _ _ Hi Hs) as [_ E]. rewrite He in E.
  destruct (or_streams _ _ _ Ord k Hk) as (l2 & S2 & _ & F). assert (l2 = l) by (eapply holds_unique; eauto). subst l2.
  destruct (F _ _ Hin) as (e & E' & D). assert (e = l_entry x) by congruence. subst e. destruct D as [(nx & D)|(ix & D)]; congruence.
Qed.

(** reading an entry that is not in an object stream *)
Lemma touch_used : forall ch w st f i n s off u, keeps ch w st -> at_slot i n st = Some s -> xdata (l_entry s) = KUsed off u ->
  exists r st', touch (S f) i n st = (r, st') /\ keeps ch w st' /\ (forall g, newest_in n g st = Some i -> r = Ok (w n g)) /\
    (forall i' n', (i', n') <> (i, n) -> at_slot i' n' st' = at_slot i' n' st) /\
    (forall g, newest_in n g st = Some i -> exists s', at_slot i n st' = Some s' /\ l_entry s' = l_entry s /\ l_init s' = true /\ (l_init s = true -> l_marked s' = l_marked s)).
Proof.
  intros ch w st f i n s off u K Hs Hx. cbn [Loading.touch]. rewrite Hs, Hx.
  assert (Hfree : is_free (l_entry s) = false) by (unfold is_free; rewrite Hx; reflexivity).
  destruct (l_init s) eqn:Ei.
  - exists (Ok (held s)), st. split; [reflexivity|]. split; [exact K|]. split; [|split; [reflexivity|]].
    + intros g Hg. destruct (k_objects _ _ _ K n g i s Hg Hs Hfree) as [A _]. unfold held. rewrite (A Ei). reflexivity.
    + intros g Hg. exists s. auto.
  - assert (Bad : forall r, (forall g, newest_in n g st = Some i -> False) -> exists r' st', (r, st) = (r', st') /\ keeps ch w st' /\ (forall g, newest_in n g st = Some i -> r' = Ok (w n g)) /\
    (forall i' n', (i', n') <> (i, n) -> at_slot i' n' st' = at_slot i' n' st) /\
    (forall g, newest_in n g st = Some i -> exists s', at_slot i n st' = Some s' /\ l_entry s' = l_entry s /\ l_init s' = true /\ (false = true -> l_marked s' = l_marked s))).
    { intros r H. exists r, st. split; [reflexivity|]. split; [exact K|]. split; [intros g Hg; destruct (H g Hg)|]. split; [reflexivity|]. intros g Hg; destruct (H g Hg). }
    assert (Good : forall g, newest_in n g st = Some i -> off <> (-1)%Z /\ exists o, read_at n (xgen (l_entry s)) off = Ok o).
    { intros g Hg. destruct (newest_at _ _ _ _ _ Hg Hs) as [E1 E2]. rewrite (k_entries _ _ _ K) in E2. rewrite <- E1. exact (or_readable _ _ _ Ord _ _ _ _ _ E2 Hx). }
    destruct (off =? -1)%Z eqn:Eo; [apply Bad; intros g Hg; destruct (Good g Hg); lia|].
    destruct (read_at n (xgen (l_entry s)) off) as [o| | |] eqn:Er; try (apply Bad; intros g Hg; destruct (Good g Hg) as [_ (o & Ho)]; discriminate).
    assert (Hf : forall s, l_entry (set_reference o s) = l_entry s) by reflexivity.
    assert (Orig : forall g, newest_in n g st = Some i -> orig n g o).
    { intros g Hg. destruct (newest_at _ _ _ _ _ Hg Hs) as [E1 E2]. rewrite (k_entries _ _ _ K) in E2. eapply or_used; eauto. rewrite E1. exact Er. }
    assert (W : forall g, newest_in n g st = Some i -> w n g = o).
    { intros g Hg. destruct (k_objects _ _ _ K n g i s Hg Hs Hfree) as [_ B]. destruct (B Ei) as [_ B2]. eapply orig_unique; [exact B2|apply Orig, Hg]. }
    exists (Ok o), (change i n (set_reference o) st). split; [reflexivity|]. split; [|split; [|split]].
    + constructor.
      * rewrite entries_change by exact Hf. apply (k_entries _ _ _ K).
      * intros n' g' i' s' Hn' Ha' Hfr. rewrite newest_change in Hn' by exact Hf. rewrite (at_change _ Hf) in Ha'.
        destruct (Nat.eqb i' i && (n' =? n)) eqn:E; [|exact (k_objects _ _ _ K _ _ _ _ Hn' Ha' Hfr)].
        apply andb_prop in E. destruct E as [Ea Eb]. apply Nat.eqb_eq in Ea. assert (n' = n) by lia. subst i' n'. rewrite Hs in Ha'. injection Ha' as <-.
        cbn [set_reference l_init l_obj]. split; [intros _; rewrite (W _ Hn'); reflexivity|discriminate].
      * exact (k_none _ _ _ K).
      * intros k l j t Hk Hl Hj Ht. rewrite newest_change in Hj by exact Hf. rewrite (at_change _ Hf) in Ht.
        assert (M : forall n' o' i' s', In (n', o') l -> newest_in n' 0 (change i n (set_reference o) st) = Some i' -> at_slot i' n' (change i n (set_reference o) st) = Some s' ->
            newest_in n' 0 st = Some i' /\ at_slot i' n' st = Some s').
        { intros n' o' i' s' Hin Hn' Ha'. rewrite newest_change in Hn' by exact Hf. split; [exact Hn'|]. rewrite (at_change _ Hf) in Ha'.
          destruct (Nat.eqb i' i && (n' =? n)) eqn:E; [|exact Ha']. exfalso. apply andb_prop in E. destruct E as [Ea Eb]. apply Nat.eqb_eq in Ea. assert (n' = n) by lia. subst i' n'.
          refine (stream_not_member k l n o' st i s n i Hk Hl (k_entries _ _ _ K) Hin Hn' Hs Hn' s off u Hs Hx eq_refl). }
        destruct (Nat.eqb j i && (k =? n)) eqn:E.
        -- apply andb_prop in E. destruct E as [Ea Eb]. apply Nat.eqb_eq in Ea. assert (k = n) by lia. subst j k. rewrite Hs in Ht. injection Ht as <-. cbn [set_reference l_marked l_init].
           split; [discriminate|]. intros n' o' i' s' Hin Hn' Ha' Hfr. destruct (M _ _ _ _ Hin Hn' Ha') as [M1 M2].
           destruct (k_streams _ _ _ K n l i s Hk Hl Hj Hs) as [S1 S2]. rewrite (S2 _ _ _ _ Hin M1 M2 Hfr).
           destruct (l_marked s); [|reflexivity]. rewrite (S1 eq_refl) in Ei. discriminate.
        -- destruct (k_streams _ _ _ K k l j t Hk Hl Hj Ht) as [S1 S2]. split; [exact S1|]. intros n' o' i' s' Hin Hn' Ha' Hfr.
           destruct (M _ _ _ _ Hin Hn' Ha') as [M1 M2]. exact (S2 _ _ _ _ Hin M1 M2 Hfr).
      * exact (k_stream_object _ _ _ K).
      * intros i' n' s' Ha' Hd. rewrite (at_change _ Hf) in Ha'. destruct (Nat.eqb i' i && (n' =? n)) eqn:E; [|exact (k_dirty _ _ _ K _ _ _ Ha' Hd)].
        apply andb_prop in E. destruct E as [Ea Eb]. apply Nat.eqb_eq in Ea. assert (n' = n) by lia. subst i' n'. rewrite Hs in Ha'. injection Ha' as <-.
        cbn [set_reference l_dirty l_entry] in *. rewrite Ei, orb_false_r in Hd. exact (k_dirty _ _ _ K _ _ _ Hs Hd).
      * intros i' n' s' Ha' Hd. rewrite (at_change _ Hf) in Ha'. destruct (Nat.eqb i' i && (n' =? n)) eqn:E; [|exact (k_free _ _ _ K _ _ _ Ha' Hd)].
        rewrite Hs in Ha'. injection Ha' as <-. change (is_free (l_entry s) = true) in Hd. congruence.
    + intros g Hg. rewrite (W g Hg). reflexivity.
    + intros i' n' Hne. rewrite (at_change _ Hf). destruct (Nat.eqb i' i && (n' =? n)) eqn:E; [|reflexivity].
      exfalso. apply Hne. apply andb_prop in E. destruct E as [Ea Eb]. apply Nat.eqb_eq in Ea. f_equal; [exact Ea|lia].
    + intros g Hg. exists (set_reference o s). rewrite (at_change _ Hf), Nat.eqb_refl, N.eqb_refl, Hs. cbn [andb option_map]. split; [reflexivity|]. split; [reflexivity|]. split; [reflexivity|]. discriminate.
Qed.

Lemma at_entry : forall st i n s, at_slot i n st = Some s -> exists l, In l (entries st) /\ In (l_entry s) l.
Proof. intros st i n s H. apply at_in in H. destruct H as (_ & l & H1 & H2). exists (map l_entry l). split; [apply (in_map (map l_entry)), H1|apply in_map, H2]. Qed.

Lemma touch_ok : forall ch w st f i n s, keeps ch w st -> at_slot i n st = Some s ->
  exists r st', touch (S (S f)) i n st = (r, st') /\ keeps ch w st' /\ forall g, newest_in n g st = Some i -> r = Ok (w n g) /\
    (is_free (l_entry s) = false -> exists s', at_slot i n st' = Some s' /\ l_init s' = true).
Proof.
  intros ch w st f i n s K Hs. destruct (xdata (l_entry s)) as [nx|off u|k ix] eqn:Hx.
  - cbn [Loading.touch]. rewrite Hs, Hx. exists (Ok ONull), st. split; [reflexivity|]. split; [exact K|]. intros g Hg.
    destruct (newest_at _ _ _ _ _ Hg Hs) as [_ E]. rewrite (k_entries _ _ _ K) in E. split; [rewrite (k_none _ _ _ K); [reflexivity|]; unfold in_file; rewrite E, Hx; reflexivity|]. unfold is_free. rewrite Hx. discriminate.
  - destruct (touch_used ch w st (S f) i n s off u K Hs Hx) as (r & st' & A & B & C & _ & D). exists r, st'. split; [exact A|]. split; [exact B|]. intros g Hg. split; [exact (C g Hg)|].
    intros _. destruct (D g Hg) as (s' & D1 & _ & D2 & _). exists s'. auto.
  - assert (Hfree : is_free (l_entry s) = false) by (unfold is_free; rewrite Hx; reflexivity).
    remember (S f) as f1. cbn [Loading.touch]. rewrite Hs, Hx. subst f1. destruct (l_init s) eqn:Ei.
    { exists (Ok (held s)), st. split; [reflexivity|]. split; [exact K|]. intros g Hg. destruct (k_objects _ _ _ K n g i s Hg Hs Hfree) as [A _]. unfold held. rewrite (A Ei). split; [reflexivity|]. intros _. exists s. auto. }
    assert (Hk : object_stream c k).
    { destruct (at_entry _ _ _ _ Hs) as (l & H1 & H2). rewrite (k_entries _ _ _ K) in H1. exists l, (l_entry s), ix. auto. }
    destruct (or_streams _ _ _ Ord k Hk) as (l & Hl & Hnd & Hmem). pose proof Hl as Hl0. destruct Hl0 as (ke & koff & ku & m & d & E1 & E2 & E3 & E4).
    destruct (newest_in k 0 st) as [j|] eqn:Ej; [|exfalso; apply newest_none in Ej; rewrite (k_entries _ _ _ K) in Ej; congruence].
    destruct (newest_some _ _ _ _ Ej) as (t & Ht & Et & _ & _). rewrite (k_entries _ _ _ K) in Et. assert (l_entry t = ke) by congruence.
    assert (Htx : xdata (l_entry t) = KUsed koff ku) by congruence.
    destruct (touch_used ch w st f j k t koff ku K Ht Htx) as (r & st1 & T1 & K1 & T2 & T3 & T4). rewrite T1. specialize (T2 0 Ej). destruct (T4 0 Ej) as (t1 & Ht1 & Het1 & Hi1 & _).
    assert (Wk : w k 0 = OStream m d).
    { eapply orig_unique; [apply (k_stream_object _ _ _ K), Hk|]. eapply or_used; eauto. }
    rewrite T2, Wk. rewrite Ht1. assert (N1 : forall a b, newest_in a b st1 = newest_in a b st) by (intros; apply newest_ext; rewrite (k_entries _ _ _ K1), (k_entries _ _ _ K); reflexivity).
    assert (Hne : (i, n) <> (j, k)). { intros C. injection C as -> ->. rewrite Hs in Ht. injection Ht as ->. congruence. }
    pose proof (T3 _ _ Hne) as Hs1. rewrite Hs in Hs1.
    assert (Newest : forall g, newest_in n g st = Some i -> g = 0 /\ exists o, In (n, o) l).
    { intros g Hg. destruct (newest_at _ _ _ _ _ Hg Hs) as [_ E]. rewrite (k_entries _ _ _ K) in E. destruct (or_listed _ _ _ Ord _ _ _ _ _ E Hx) as [A B]. split; [exact A|exact (B l Hl)]. }
    destruct (l_marked t1) eqn:Em.
    + rewrite Hs1. eexists. exists st1. split; [reflexivity|]. split; [exact K1|]. intros g Hg. exfalso. destruct (Newest g Hg) as [-> (o & Hin)].
      assert (Ej1 : newest_in k 0 st1 = Some j) by (rewrite N1; exact Ej).
      destruct (k_streams _ _ _ K1 k l j t1 Hk Hl Ej1 Ht1) as [_ S2].
      assert (l_init s = l_marked t1) by (eapply S2; eauto; rewrite N1; exact Hg). congruence.
    + rewrite E4. destruct (place_ok l st1 Hnd) as (st2 & P1 & P2 & P3).
      { intros a b Hin C. apply newest_none in C. rewrite (k_entries _ _ _ K1) in C. destruct (Hmem _ _ Hin) as (e & He & _). congruence. }
      rewrite P1. assert (Hkl : existsb (fun x => fst x =? k) l = false).
      { destruct (existsb (fun x => fst x =? k) l) eqn:E; [|reflexivity]. exfalso. apply existsb_exists in E. destruct E as ([a b] & Hin & Ea). cbn in Ea. assert (a = k) by lia. subst a.
        destruct (Hmem _ _ Hin) as (e & He & D). assert (e = ke) by congruence. subst e. destruct D as [(nx & D)|(ix' & D)]; congruence. }
      rewrite Hkl. assert (Hf : forall s, l_entry (mark s) = l_entry s) by reflexivity.
      set (st3 := change j k mark st2).
      assert (N3 : forall a b, newest_in a b st3 = newest_in a b st).
      { intros a b. unfold st3. rewrite newest_change by exact Hf. rewrite <- N1. apply newest_ext, P2. }
      assert (A3 : forall a b, at_slot a b st3 = if Nat.eqb a j && (b =? k) then option_map mark (at_slot j k st1) else option_map (placed_slot l st1 a b) (at_slot a b st1)).
      { intros a b. unfold st3. rewrite (at_change _ Hf). rewrite !P3. destruct (Nat.eqb a j && (b =? k)); [|reflexivity]. rewrite Ht1. cbn [option_map]. unfold placed_slot.
        assert (Mk : member k l = None). { destruct (member k l) eqn:E; [|reflexivity]. apply member_in in E. assert (existsb (fun x => fst x =? k) l = true) by (apply existsb_exists; eexists; split; [exact E|cbn; apply N.eqb_refl]). congruence. }
        rewrite Mk. destruct (_ && _); reflexivity. }
      assert (Ej1 : newest_in k 0 st1 = Some j) by (rewrite N1; exact Ej).
      destruct (k_streams _ _ _ K1 k l j t1 Hk Hl Ej1 Ht1) as [_ S2]. rewrite Em in S2.
      assert (Hset : forall a b x, at_slot a b st3 = Some x -> exists x1, at_slot a b st1 = Some x1 /\ l_entry x = l_entry x1 /\
          ((exists o, In (b, o) l /\ newest_in b 0 st = Some a /\ is_free (l_entry x1) = false /\ x = set_reference o x1) \/
           (x = (if Nat.eqb a j && (b =? k) then mark x1 else x1) /\ forall o, In (b, o) l -> newest_in b 0 st = Some a -> is_free (l_entry x1) = true))).
      { intros a b x Hx3. rewrite A3 in Hx3. destruct (Nat.eqb a j && (b =? k)) eqn:E.
        - apply andb_prop in E. destruct E as [Ea Eb]. apply Nat.eqb_eq in Ea. assert (b = k) by lia. subst a b. rewrite Ht1 in Hx3. injection Hx3 as <-.
          exists t1. split; [exact Ht1|]. split; [reflexivity|]. right. split; [reflexivity|].
          intros o Hin. exfalso. assert (existsb (fun x => fst x =? k) l = true) by (apply existsb_exists; eexists; split; [exact Hin|cbn; apply N.eqb_refl]). congruence.
        - destruct (at_slot a b st1) as [x1|] eqn:Ex1; [|discriminate]. cbn [option_map] in Hx3. injection Hx3 as <-. exists x1. split; [reflexivity|].
          unfold placed_slot. rewrite N1. destruct (newest_in b 0 st) as [a'|] eqn:En; cbn [is_some_nat andb].
          + destruct (Nat.eqb a' a) eqn:Eaa; cbn [andb].
            * apply Nat.eqb_eq in Eaa. subst a'. destruct (is_free (l_entry x1)) eqn:Fr; cbn [negb].
              -- split; [reflexivity|]. right. split; [reflexivity|]. auto.
              -- destruct (member b l) as [o|] eqn:Eo.
                 ++ split; [reflexivity|]. left. exists o. apply member_in in Eo. auto.
                 ++ split; [reflexivity|]. right. split; [reflexivity|]. intros o Hin. rewrite (in_member _ _ _ Hnd Hin) in Eo. discriminate.
            * split; [reflexivity|]. right. split; [reflexivity|]. intros o _ Ha. injection Ha as ->. rewrite Nat.eqb_refl in Eaa. discriminate.
          + split; [reflexivity|]. right. split; [reflexivity|]. intros o _ Ha. discriminate. }
      assert (Morig : forall a b o x1, In (b, o) l -> newest_in b 0 st = Some a -> at_slot a b st1 = Some x1 -> is_free (l_entry x1) = false -> forall g, newest_in b g st = Some a -> w b g = o /\ l_init x1 = false).
      { intros a b o x1 Hin Hn Hx1 Fr g Hg. rewrite <- N1 in Hn, Hg. destruct (newest_at _ _ _ _ _ Hn Hx1) as [G1 G2]. destruct (newest_at _ _ _ _ _ Hg Hx1) as [G3 _].
        assert (Hg0 : g = 0) by congruence. clear G3. subst g. rewrite (k_entries _ _ _ K1) in G2. assert (Hi0 : l_init x1 = false) by (eapply S2; eauto). split; [|exact Hi0].
        destruct (k_objects _ _ _ K1 b 0 a x1 Hn Hx1 Fr) as [_ B]. destruct (B Hi0) as [_ B2]. eapply orig_unique; [exact B2|].
        destruct (Hmem _ _ Hin) as (e & He & D). assert (e = l_entry x1) by congruence. subst e. destruct D as [(nx & D)|(ix' & D)]; [unfold is_free in Fr; rewrite D in Fr; discriminate|].
        eapply or_stream; eauto. }
      assert (K3 : keeps ch w st3).
      { constructor.
        - unfold st3. rewrite entries_change by exact Hf. rewrite P2. apply (k_entries _ _ _ K1).
        - intros b g a x Hn Hx3 Fr. rewrite N3 in Hn. destruct (Hset _ _ _ Hx3) as (x1 & X1 & X2 & [(o & Hin & Hn0 & Fr1 & ->)|[-> _]]).
          + destruct (Morig _ _ _ _ Hin Hn0 X1 Fr1 g Hn) as [W0 _]. cbn [set_reference l_init l_obj]. split; [intros _; rewrite W0; reflexivity|discriminate].
          + rewrite <- N1 in Hn. assert (Fr1 : is_free (l_entry x1) = false) by (rewrite <- X2; exact Fr).
            destruct (k_objects _ _ _ K1 b g a x1 Hn X1 Fr1) as [B1 B2]. destruct (Nat.eqb a j && (b =? k)); [exact (conj B1 B2)|exact (conj B1 B2)].
        - exact (k_none _ _ _ K1).
        - intros k' l' j' t' Hk' Hl' Hj' Ht'. rewrite N3 in Hj'.
          assert (Hused : exists off' u', xdata (l_entry t') = KUsed off' u').
          { destruct Hl' as (ke' & o' & u' & _ & _ & Q1 & Q2 & _). exists o', u'. rewrite <- N3 in Hj'. destruct (newest_at _ _ _ _ _ Hj' Ht') as [_ Q]. unfold st3 in Q. rewrite entries_change in Q by exact Hf. rewrite P2, (k_entries _ _ _ K1) in Q. congruence. }
          destruct (Hset _ _ _ Ht') as (t1' & X1 & X2 & [(o & Hin & Hn0 & Fr1 & _)|[X3 _]]).
          { exfalso. destruct Hused as (o' & u' & Hu). destruct (Hmem _ _ Hin) as (e & He & D). rewrite <- N1 in Hn0. destruct (newest_at _ _ _ _ _ Hn0 X1) as [_ Q]. rewrite (k_entries _ _ _ K1) in Q.
            assert (e = l_entry t1') by congruence. subst e. rewrite X2 in Hu. destruct D as [(nx & D)|(ix' & D)]; congruence. }
          destruct (N.eq_dec k' k) as [->|Hkk].
          + assert (j' = j) by congruence. subst j'. assert (l' = l) by (eapply holds_unique; eauto). subst l'. rewrite Nat.eqb_refl, N.eqb_refl in X3. cbn [andb] in X3. subst t'.
            rewrite Ht1 in X1. injection X1 as <-. cbn [mark l_marked l_init]. split; [intros _; exact Hi1|]. intros b o a x Hin Hn Hx3 Fr. rewrite N3 in Hn.
            destruct (Hset _ _ _ Hx3) as (x1 & Y1 & Y2 & [(o' & Hin' & Hn0 & Fr1 & ->)|[_ Y3]]); [reflexivity|]. specialize (Y3 _ Hin Hn). rewrite Y2 in Fr. congruence.
          + replace (k' =? k) with false in X3 by lia. rewrite andb_false_r in X3. subst t'.
            assert (Hj1 : newest_in k' 0 st1 = Some j') by (rewrite N1; exact Hj'). destruct (k_streams _ _ _ K1 k' l' j' t1' Hk' Hl' Hj1 X1) as [Z1 Z2]. split; [exact Z1|].
            intros b o a x Hin Hn Hx3 Fr. rewrite N3 in Hn. destruct (Hset _ _ _ Hx3) as (x1 & Y1 & Y2 & [(o' & Hin' & Hn0 & Fr1 & _)|[Y3 _]]).
            * exfalso. destruct (Hmem _ _ Hin') as (e & He & D). destruct (or_streams _ _ _ Ord k' Hk') as (l2 & L1 & _ & L3). assert (l2 = l') by (eapply holds_unique; eauto). subst l2.
              destruct (L3 _ _ Hin) as (e' & He' & D'). assert (e' = e) by congruence. subst e'. rewrite <- N1 in Hn0. destruct (newest_at _ _ _ _ _ Hn0 Y1) as [_ Q]. rewrite (k_entries _ _ _ K1) in Q.
              assert (e = l_entry x1) by congruence. subst e. unfold is_free in Fr1. destruct D as [(nx & D)|(ix1 & D)]; [rewrite D in Fr1; discriminate|]. destruct D' as [(nx & D')|(ix2 & D')]; [congruence|].
              rewrite D in D'. injection D' as E' _. congruence.
            * assert (l_init x = l_init x1) by (rewrite Y3; destruct (_ && _); reflexivity). rewrite H0. rewrite <- N1 in Hn. eapply Z2; eauto. rewrite <- Y2. exact Fr.
        - exact (k_stream_object _ _ _ K1).
        - intros a b x Hx3 Hd. destruct (Hset _ _ _ Hx3) as (x1 & Y1 & Y2 & [(o' & Hin' & Hn0 & Fr1 & ->)|[Y3 _]]).
          + pose proof Hn0 as Hn1. rewrite <- N1 in Hn1. cbn [set_reference l_dirty l_entry] in *.
            destruct (Morig _ _ _ _ Hin' Hn0 Y1 Fr1 0 Hn0) as [_ I0]. rewrite I0, orb_false_r in Hd. exact (k_dirty _ _ _ K1 _ _ _ Y1 Hd).
          + assert (l_dirty x1 = true) by (rewrite Y3 in Hd; destruct (_ && _); exact Hd). rewrite Y2. exact (k_dirty _ _ _ K1 _ _ _ Y1 H0).
        - intros a b x Hx3 Hd. destruct (Hset _ _ _ Hx3) as (x1 & Y1 & Y2 & [(o' & Hin' & Hn0 & Fr1 & ->)|[Y3 _]]).
          + change (is_free (l_entry x1) = true) in Hd. congruence.
          + rewrite Y2 in Hd. pose proof (k_free _ _ _ K1 _ _ _ Y1 Hd) as F. rewrite Y3. destruct (_ && _); exact F. }
      eexists. exists st3. split; [reflexivity|]. split; [exact K3|]. intros g Hg. destruct (Newest g Hg) as [-> (o & Hin)].
      assert (Hs3 : exists s3, at_slot i n st3 = Some s3).
      { rewrite A3. destruct (Nat.eqb i j && (n =? k)); [rewrite Ht1; eexists; reflexivity|]. rewrite Hs1. eexists. reflexivity. }
      destruct Hs3 as (s3 & Hs3). rewrite Hs3. destruct (Hset _ _ _ Hs3) as (x1 & Y1 & Y2 & [(o' & Hin' & Hn0 & Fr1 & ->)|[_ Y3]]).
      * destruct (Morig _ _ _ _ Hin' Hn0 Y1 Fr1 0 Hn0) as [W0 _]. cbn [held set_reference l_obj]. rewrite W0. split; [reflexivity|]. intros _. eexists. split; reflexivity.
      * specialize (Y3 _ Hin Hg). rewrite Hs1 in Y1. injection Y1 as <-. congruence.
Qed.

Lemma keeps_weaken : forall (ch ch' : N -> N -> Prop) w st, (forall n g, ch n g -> ch' n g) -> keeps ch w st -> keeps ch' w st.
Proof. intros ch ch' w st H K. destruct K. constructor; eauto. Qed.

Lemma get_ok : forall ch w st f n g, keeps ch w st -> exists st', get_object read_at members (S (S f)) n g st = (Ok (w n g), st') /\ keeps ch w st'.
Proof.
  intros ch w st f n g K. unfold get_object. destruct (newest_in n g st) as [i|] eqn:Ei.
  - destruct (newest_some _ _ _ _ Ei) as (s & Hs & _). destruct (touch_ok ch w st f i n s K Hs) as (r & st' & A & B & C). exists st'. destruct (C g Ei) as [C1 _]. rewrite A, C1. auto.
  - exists st. split; [|exact K]. apply newest_none in Ei. rewrite (k_entries _ _ _ K) in Ei. rewrite (k_none _ _ _ K); [reflexivity|]. unfold in_file. rewrite Ei. reflexivity.
Qed.

Lemma step_ok : forall (ch ch' : N -> N -> Prop) w st f x, keeps ch w st -> spares_streams c x ->
  (forall n g, ch n g -> ch' n g) -> (forall n g o, x = LEdit n g o -> ch' n g) ->
  exists r st', lstep read_at members (S (S f)) x st = (r, st') /\ answers r (fst (expected c x w)) /\ keeps ch' (snd (expected c x w)) st'.
Proof.
  intros ch ch' w st f x K Hx Hch Hed. destruct x as [n g|n g o|i n].
  - destruct (get_ok ch w st f n g K) as (st' & A & B). exists (Ok (w n g)), st'. cbn [lstep expected fst snd]. rewrite A. split; [reflexivity|]. split; [reflexivity|]. eapply keeps_weaken; eauto.
  - destruct (get_ok ch w st f n g K) as (st1 & A & B). cbn [lstep expected fst snd]. rewrite A. cbn [spares_streams] in Hx.
    destruct (newest_in n g st1) as [i|] eqn:Ei.
    + destruct (newest_some _ _ _ _ Ei) as (s & Hs & He & _ & Hg). rewrite (k_entries _ _ _ B) in He. rewrite Hs.
      destruct (is_free (l_entry s)) eqn:Fr.
      * rewrite (k_free _ _ _ B _ _ _ Hs Fr). exists (Ok (w n g)), st1. split; [reflexivity|]. split; [reflexivity|].
        assert (F : in_file c n g = false) by (unfold in_file; rewrite He; unfold is_free in Fr; destruct (xdata (l_entry s)); congruence). rewrite F. eapply keeps_weaken; eauto.
      * assert (F : in_file c n g = true) by (unfold in_file; rewrite He; unfold is_free in Fr; destruct (xdata (l_entry s)); congruence). rewrite F.
        assert (Io : l_obj s <> None -> l_init s = true).
        { intros Ho. destruct (l_init s) eqn:E; [reflexivity|]. destruct (k_objects _ _ _ B n g i s Ei Hs Fr) as [_ Q]. destruct (Q E) as [Q1 _]. congruence. }
        destruct (l_obj s) as [o0|] eqn:Eo.
        -- assert (Hi : l_init s = true) by (apply Io; discriminate). assert (Hf : forall s, l_entry (edited o s) = l_entry s) by reflexivity.
           exists (Ok (w n g)), (change i n (edited o) st1). split; [reflexivity|]. split; [reflexivity|]. set (w' := fun n' g' => if (n' =? n) && (g' =? g) then o else w n' g').
           assert (S1 : forall a b x, at_slot a b (change i n (edited o) st1) = Some x -> exists x1, at_slot a b st1 = Some x1 /\ l_entry x = l_entry x1 /\ l_init x = l_init x1 /\ l_marked x = l_marked x1 /\
              ((a, b) = (i, n) /\ x1 = s /\ x = edited o s \/ (a, b) <> (i, n) /\ x = x1)).
           { intros a b x Hx3. rewrite (at_change _ Hf) in Hx3. destruct (Nat.eqb a i && (b =? n)) eqn:E.
             - apply andb_prop in E. destruct E as [Ea Eb]. apply Nat.eqb_eq in Ea. assert (b = n) by lia. subst a b. rewrite Hs in Hx3. injection Hx3 as <-. exists s. repeat split; auto.
             - exists x. repeat split; auto. right. split; [|reflexivity]. intros C. injection C as -> ->. rewrite Nat.eqb_refl, N.eqb_refl in E. discriminate. }
           constructor.
           ++ rewrite entries_change by exact Hf. apply (k_entries _ _ _ B).
           ++ intros n' g' i' s' Hn' Ha' Fr'. rewrite newest_change in Hn' by exact Hf. destruct (S1 _ _ _ Ha') as (x1 & X1 & X2 & X3 & X4 & [(E1 & -> & ->)|[E1 ->]]).
              ** injection E1 as -> ->. destruct (newest_at _ _ _ _ _ Hn' Hs) as [E2 _]. assert (g' = g) by congruence. subst g'. cbn [edited l_init l_obj]. unfold w'. rewrite H, !N.eqb_refl. cbn [andb]. split; [reflexivity|congruence].
              ** unfold w'. destruct ((n' =? n) && (g' =? g)) eqn:E2; [|exact (k_objects _ _ _ B _ _ _ _ Hn' X1 Fr')]. exfalso. apply E1. apply andb_prop in E2. destruct E2 as [Ea Eb]. assert (n' = n) by lia. assert (g' = g) by lia. subst n' g'. congruence.
           ++ intros n' g' F'. unfold w'. destruct ((n' =? n) && (g' =? g)) eqn:E2; [|exact (k_none _ _ _ B _ _ F')]. apply andb_prop in E2. destruct E2 as [Ea Eb]. assert (n' = n) by lia. assert (g' = g) by lia. subst n' g'. congruence.
           ++ intros k l j t Hk Hl Hj Ht. rewrite newest_change in Hj by exact Hf. destruct (S1 _ _ _ Ht) as (t1 & X1 & X2 & X3 & X4 & _). destruct (k_streams _ _ _ B k l j t1 Hk Hl Hj X1) as [Z1 Z2].
              rewrite X3, X4. split; [exact Z1|]. intros b o' a x Hin Hn Hx3 Fr3. rewrite newest_change in Hn by exact Hf. destruct (S1 _ _ _ Hx3) as (x1 & Y1 & Y2 & Y3 & _). rewrite Y3. rewrite Y2 in Fr3. eapply Z2; eauto.
           ++ intros k Hk. unfold w'. destruct ((k =? n) && (0 =? g)) eqn:E2; [|exact (k_stream_object _ _ _ B k Hk)]. exfalso. apply Hx. apply andb_prop in E2. destruct E2 as [Ea Eb]. split; [lia|]. assert (n = k) by lia. subst n. exact Hk.
           ++ intros a b x Hx3 Hd. destruct (S1 _ _ _ Hx3) as (x1 & X1 & X2 & X3 & X4 & [(E1 & -> & ->)|[E1 ->]]).
              ** injection E1 as -> ->. cbn [edited l_entry]. rewrite Hg. apply (Hed n g o). reflexivity.
              ** apply Hch. exact (k_dirty _ _ _ B _ _ _ X1 Hd).
           ++ intros a b x Hx3 Hd. destruct (S1 _ _ _ Hx3) as (x1 & X1 & X2 & X3 & X4 & [(E1 & -> & ->)|[E1 ->]]); [change (is_free (l_entry s) = true) in Hd; congruence|exact (k_free _ _ _ B _ _ _ X1 Hd)].
        -- (* not read although asked for: impossible *)
           exfalso. revert A. unfold get_object. assert (N0 : newest_in n g st = Some i) by (rewrite <- Ei; apply newest_ext; rewrite (k_entries _ _ _ K), (k_entries _ _ _ B); reflexivity).
           rewrite N0. intros A. destruct (newest_some _ _ _ _ N0) as (s0 & Hs0 & He0 & _). rewrite (k_entries _ _ _ K) in He0. assert (Es : l_entry s0 = l_entry s) by congruence.
           destruct (touch_ok ch w st f i n s0 K Hs0) as (r' & st' & T1 & T2 & T3). rewrite T1 in A. injection A as -> ->. destruct (T3 g N0) as [_ T4]. rewrite Es in T4. destruct (T4 Fr) as (s' & T5 & T6).
           assert (s' = s) by congruence. subst s'. destruct (k_objects _ _ _ B n g i s Ei Hs Fr) as [Q _]. rewrite (Q T6) in Eo. discriminate.
    + exists (Ok (w n g)), st1. split; [reflexivity|]. split; [reflexivity|].
      apply newest_none in Ei. rewrite (k_entries _ _ _ B) in Ei. assert (F : in_file c n g = false) by (unfold in_file; rewrite Ei; reflexivity). rewrite F. eapply keeps_weaken; eauto.
  - cbn [lstep expected fst snd answers]. destruct (at_slot i n st) as [s|] eqn:Hs.
    + destruct (touch_ok ch w st f i n s K Hs) as (r & st' & A & B & C). exists r, st'. split; [exact A|]. split; [exact I|]. eapply keeps_weaken; eauto.
    + exists (Ok ONull), st. cbn [Loading.touch]. rewrite Hs. split; [reflexivity|]. split; [exact I|]. eapply keeps_weaken; eauto.
Qed.

Lemma run_ok : forall f l ch w st, keeps ch w st -> Forall (spares_streams c) l ->
  Forall2 answers (fst (lrun read_at members (S (S f)) l st)) (fst (expected_all c l w)) /\
  keeps (fun n g => ch n g \/ exists o, In (LEdit n g o) l) (snd (expected_all c l w)) (snd (lrun read_at members (S (S f)) l st)).
Proof.
  intros f. induction l as [|x l IH]; intros ch w st K Hl.
  - cbn [lrun expected_all fst snd]. split; [constructor|]. eapply keeps_weaken; [|exact K]. auto.
  - inversion Hl as [|? ? Hx Hl']; subst.
    destruct (step_ok ch (fun n g => ch n g \/ exists o, x = LEdit n g o) w st f x K Hx) as (r & st1 & A & B & K1); [auto|intros n g o ->; right; exists o; reflexivity|].
    cbn [lrun expected_all]. rewrite A. destruct (expected c x w) as [a w1] eqn:Ex. cbn [fst snd] in B, K1.
    destruct (IH _ w1 st1 K1 Hl') as [I1 I2]. destruct (lrun read_at members (S (S f)) l st1) as [rs st2]. destruct (expected_all c l w1) as [b w2]. cbn [fst snd] in *.
    split; [constructor; assumption|]. eapply keeps_weaken; [|exact I2]. intros n g [[H|(o & ->)]|(o & H)]; [left; exact H|right; exists o; left; reflexivity|right; exists o; right; exact H].
Qed.

Lemma opened_keeps : forall w, (forall n g, orig n g (w n g)) -> keeps (fun _ _ => False) w (opened c).
Proof.
  intros w Hw. constructor.
  - apply entries_opened.
  - intros n g i s Hn Hs Fr. rewrite (at_opened _ _ _ _ Hs). cbn [unread l_init l_obj]. split; [discriminate|]. intros _. split; [reflexivity|apply Hw].
  - intros n g F. eapply orig_unique; [apply Hw|]. unfold in_file in F. destruct (entry_of c n g) as [e|] eqn:E; [|apply or_missing; exact E].
    destruct (xdata e) eqn:Ex; try discriminate. eapply or_free; eauto.
  - intros k l j t Hk Hl Hj Ht. rewrite (at_opened _ _ _ _ Ht). cbn [unread l_init l_marked]. split; [discriminate|]. intros n o i s _ _ Hs _. rewrite (at_opened _ _ _ _ Hs). reflexivity.
  - intros k _. apply Hw.
  - intros i n s Hs Hd. rewrite (at_opened _ _ _ _ Hs) in Hd. discriminate.
  - intros i n s Hs _. rewrite (at_opened _ _ _ _ Hs). reflexivity.
Qed.

(** every number stands for an object *)
Lemma orig_exists : forall n g, exists o, orig n g o.
Proof.
  intros n g. destruct (entry_of c n g) as [e|] eqn:E; [|exists ONull; apply or_missing; exact E]. destruct (xdata e) as [nx|off u|k i] eqn:Ex.
  - exists ONull. eapply or_free; eauto.
  - destruct (or_readable _ _ _ Ord _ _ _ _ _ E Ex) as [_ (o & Ho)]. exists o. eapply or_used; eauto.
  - destruct (or_listed _ _ _ Ord _ _ _ _ _ E Ex) as [_ H]. destruct (or_streams _ _ _ Ord k (is_stream_of _ _ _ _ _ E Ex)) as (l & Hl & _).
    destruct (H l Hl) as (o & Ho). exists o. eapply or_stream; eauto.
Qed.
End Keeps.

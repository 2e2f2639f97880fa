(** C65: an object has one value, whatever was read before. *)
From Coq Require Import List NArith ZArith Bool Lia String.
From Coq Require Import List.
From Verif.Model Require Import Base Object Xref Loading.
From Verif.Spec Require Import Loading.
From Verif.Proof Require Import Tac.
From Verif.Proof Require Loading.
Import ListNotations.
Local Open Scope N_scope.

(** In a file in which no object of an object stream was replaced by an update, every number stands for one object; and whatever a program
    reads, edits and saves, in whatever order, it gets for every number that object, or what it put there itself; and only the entries of
    objects it edited are marked as changed. *)
Theorem C65_reads_partial : forall c read_at members, orderly c read_at members ->
  (forall n g, exists o, original c read_at members n g o /\ forall o', original c read_at members n g o' -> o' = o) /\
  forall start, (forall n g, original c read_at members n g (start n g)) ->
  forall fuel l, (2 <= fuel)%nat -> Forall (spares_streams c) l ->
  let '(results, st) := lrun read_at members fuel l (opened c) in
  Forall2 answers results (fst (expected_all c l start)) /\
  forall i n s, at_slot i n st = Some s -> l_dirty s = true -> exists o, In (LEdit n (xgen (l_entry s)) o) l.
Proof.
  intros c read_at members Ord. split.
  - intros n g. destruct (Loading.orig_exists _ _ _ Ord n g) as (o & H). exists o. split; [exact H|]. intros o' H'. eapply Loading.orig_unique; eauto.
  - intros start Hs fuel l Hf Hl. destruct fuel as [|[|f]]; [lia|lia|].
    pose proof (Loading.run_ok _ _ _ Ord f l _ start (opened c) (Loading.opened_keeps _ _ _ Ord start Hs) Hl) as [A B].
    destruct (lrun read_at members (S (S f)) l (opened c)) as [results st]. cbn [fst snd] in *. split; [exact A|].
    intros i n s H1 H2. destruct (Loading.k_dirty _ _ _ _ _ _ B _ _ _ H1 H2) as [[]|H]. exact H.
Qed.

(** An update may replace one object of an object stream and leave the stream in use for others.  Reading the object gives the new version;
    reading any other object of the stream afterwards replaces it by the old version, and marks its entry as changed. *)
Theorem C65_overridden_refuted : forall c read_at members n m k l e off u new old e' i o' fuel,
  entry_of c n 0 = Some e -> xdata e = KUsed off u -> off <> (-1)%Z -> read_at n 0 off = Ok new ->
  entry_of c m 0 = Some e' -> xdata e' = KComp k i ->
  (exists ek koff ku ms d, entry_of c k 0 = Some ek /\ xdata ek = KUsed koff ku /\ koff <> (-1)%Z /\ read_at k 0 koff = Ok (OStream ms d) /\ members (OStream ms d) = Ok l) ->
  NoDup (map fst l) -> (forall a o, In (a, o) l -> entry_of c a 0 <> None /\ a <> k) -> In (n, old) l -> In (m, o') l -> (2 <= fuel)%nat ->
  original c read_at members n 0 new /\
  let '(results, st) := lrun read_at members fuel [LRead n 0; LRead m 0; LRead n 0] (opened c) in
  results = [Ok new; Ok o'; Ok old] /\ exists j s, newest_in n 0 st = Some j /\ at_slot j n st = Some s /\ l_dirty s = true.
Proof.
  intros c read_at members n m k l e off u new old e' i o' fuel En Ex Ho Hr Em Emx (ek & koff & ku & ms & d & Ek & Ekx & Hko & Hkr & Hkm) Nd Hm Hn Hmm Hf.
  split; [eapply or_used; eauto|]. destruct fuel as [|[|f]]; [lia|lia|].
  set (st0 := opened c).
  assert (E0 : Loading.entries st0 = c) by apply Loading.entries_opened.
  assert (G : forall a e1, entry_of c a 0 = Some e1 -> exists j, newest_in a 0 st0 = Some j /\ at_slot j a st0 = Some (unread e1) /\ xgen e1 = 0).
  { intros a e1 Ha. destruct (newest_in a 0 st0) as [j|] eqn:Ej.
    - destruct (Loading.newest_some _ _ _ _ Ej) as (s & A & B & _ & D). rewrite E0 in B. assert (l_entry s = e1) by congruence. exists j. split; [reflexivity|].
      split; [rewrite A; f_equal; rewrite <- H; eapply Loading.at_opened; exact A|congruence].
    - apply Loading.newest_none in Ej. rewrite E0 in Ej. congruence. }
  destruct (G _ _ En) as (jn & Jn & An & Gn). destruct (G _ _ Em) as (jm & Jm & Am & Gm). destruct (G _ _ Ek) as (jk & Jk & Ak & Gk).
  assert (Hnm : n <> m) by (intros ->; congruence). assert (Hnk : n <> k) by (exact (proj2 (Hm _ _ Hn))). assert (Hmk : m <> k) by (exact (proj2 (Hm _ _ Hmm))).
  assert (Hf1 : forall o s, l_entry (set_reference o s) = l_entry s) by reflexivity. assert (Hf2 : forall s, l_entry (mark s) = l_entry s) by reflexivity.
  (* the new version is read *)
  set (st1 := change jn n (set_reference new) st0).
  assert (S1 : lstep read_at members (S (S f)) (LRead n 0) st0 = (Ok new, st1)).
  { cbn [lstep]. unfold get_object. rewrite Jn. remember (S f) as f1. cbn [touch]. rewrite An. cbn [unread l_entry l_init]. rewrite Ex.
    replace (off =? -1)%Z with false by lia. rewrite Gn, Hr. reflexivity. }
  assert (N1 : forall a b, newest_in a b st1 = newest_in a b st0) by (intros; apply Loading.newest_change, Hf1).
  assert (A1 : forall a b, b <> n -> at_slot a b st1 = at_slot a b st0).
  { intros a b Hb. unfold st1. rewrite (Loading.at_change _ (Hf1 new)). replace (b =? n) with false by lia. rewrite andb_false_r. reflexivity. }
  (* the stream object *)
  set (sk := OStream ms d). set (st2 := change jk k (set_reference sk) st1).
  assert (T2 : touch read_at members (S f) jk k st1 = (Ok sk, st2)).
  { cbn [touch]. rewrite (A1 _ _ (not_eq_sym Hnk)), Ak. cbn [unread l_entry l_init]. rewrite Ekx. replace (koff =? -1)%Z with false by lia. rewrite Gk, Hkr. reflexivity. }
  assert (N2 : forall a b, newest_in a b st2 = newest_in a b st0) by (intros; unfold st2; rewrite Loading.newest_change by apply Hf1; apply N1).
  assert (A2 : forall a b, b <> k -> at_slot a b st2 = at_slot a b st1).
  { intros a b Hb. unfold st2. rewrite (Loading.at_change _ (Hf1 sk)). replace (b =? k) with false by lia. rewrite andb_false_r. reflexivity. }
  assert (K2 : at_slot jk k st2 = Some (set_reference sk (unread ek))).
  { unfold st2. rewrite (Loading.at_change _ (Hf1 sk)), Nat.eqb_refl, N.eqb_refl. cbn [andb]. rewrite (A1 _ _ (not_eq_sym Hnk)), Ak. reflexivity. }
  (* the objects of the stream are placed *)
  destruct (Loading.place_ok l st2 Nd) as (st3 & P1 & P2 & P3).
  { intros a b Hab. rewrite N2. intros C. apply Loading.newest_none in C. rewrite E0 in C. exact (proj1 (Hm _ _ Hab) C). }
  set (st4 := change jk k mark st3).
  assert (Hkl : existsb (fun x => fst x =? k) l = false).
  { destruct (existsb (fun x => fst x =? k) l) eqn:E; [|reflexivity]. exfalso. apply existsb_exists in E. destruct E as ([a b] & Hin & Ea). cbn in Ea. apply (proj2 (Hm _ _ Hin)). lia. }
  assert (N4 : forall a b, newest_in a b st4 = newest_in a b st0).
  { intros a b. unfold st4. rewrite Loading.newest_change by exact Hf2. rewrite <- N2. apply Loading.newest_ext, P2. }
  assert (A4 : forall a b, b <> k -> at_slot a b st4 = option_map (Loading.placed_slot l st2 a b) (at_slot a b st1)).
  { intros a b Hb. unfold st4. rewrite (Loading.at_change _ Hf2). replace (b =? k) with false by lia. rewrite andb_false_r, P3, A2 by exact Hb. reflexivity. }
  assert (M4 : at_slot jm m st4 = Some (set_reference o' (unread e'))).
  { rewrite A4 by exact Hmk. rewrite A1 by (apply not_eq_sym, Hnm). rewrite Am. cbn [option_map]. unfold Loading.placed_slot. rewrite N2, Jm. cbn [Loading.is_some_nat]. rewrite Nat.eqb_refl.
    unfold Loading.is_free. cbn [unread l_entry]. rewrite Emx. cbn [andb negb]. rewrite (Loading.in_member _ _ _ Nd Hmm). reflexivity. }
  assert (M5 : at_slot jn n st4 = Some (set_reference old (set_reference new (unread e)))).
  { rewrite A4 by exact Hnk. unfold st1. rewrite (Loading.at_change _ (Hf1 new)), Nat.eqb_refl, N.eqb_refl. cbn [andb]. rewrite An. cbn [option_map]. unfold Loading.placed_slot. rewrite N2, Jn. cbn [Loading.is_some_nat]. rewrite Nat.eqb_refl.
    unfold Loading.is_free. cbn [set_reference unread l_entry]. rewrite Ex. cbn [andb negb]. rewrite (Loading.in_member _ _ _ Nd Hn). reflexivity. }
  assert (S2 : lstep read_at members (S (S f)) (LRead m 0) st1 = (Ok o', st4)).
  { cbn [lstep]. unfold get_object. rewrite N1, Jm. remember (S f) as f1. cbn [touch]. rewrite (A1 _ _ (not_eq_sym Hnm)), Am. cbn [unread l_entry l_init]. rewrite Emx. rewrite N1, Jk, T2. unfold sk. rewrite K2.
    cbn [set_reference unread l_marked]. rewrite Hkm, P1, Hkl. fold st4. rewrite M4. reflexivity. }
  assert (S3 : lstep read_at members (S (S f)) (LRead n 0) st4 = (Ok old, st4)).
  { cbn [lstep]. unfold get_object. rewrite N4, Jn. remember (S f) as f1. cbn [touch]. rewrite M5. cbn [set_reference unread l_entry l_init]. rewrite Ex. reflexivity. }
  remember (S (S f)) as f2. cbn [lrun]. fold st0. rewrite S1, S2, S3. split; [reflexivity|]. exists jn. eexists. rewrite N4. split; [exact Jn|]. split; [exact M5|]. reflexivity.
Qed.

(** Objects said to be in object streams that are themselves said to be in object streams, and so on without end (for example, an object
    stream said to be in itself): asking for one of them never comes to an end. *)
Theorem C65_recursion_refuted : forall c read_at members (inside : N -> Prop),
  (forall n, inside n -> exists e k i, entry_of c n 0 = Some e /\ xdata e = KComp k i /\ inside k) ->
  forall n, inside n -> forall fuel, fst (get_object read_at members fuel n 0 (opened c)) = NoFuel.
Proof.
  intros c read_at members inside H n Hn fuel.
  assert (G : forall n, inside n -> exists j e k i, newest_in n 0 (opened c) = Some j /\ at_slot j n (opened c) = Some (unread e) /\ xdata e = KComp k i /\ inside k).
  { intros a Ha. destruct (H a Ha) as (e & k & i & A & B & C). destruct (newest_in a 0 (opened c)) as [j|] eqn:Ej.
    - destruct (Loading.newest_some _ _ _ _ Ej) as (s & D & E & _). rewrite Loading.entries_opened in E. assert (l_entry s = e) by congruence. exists j, e, k, i.
      split; [reflexivity|]. split; [rewrite D; f_equal; rewrite <- H0; eapply Loading.at_opened; exact D|auto].
    - apply Loading.newest_none in Ej. rewrite Loading.entries_opened in Ej. congruence. }
  assert (T : forall fuel n j, inside n -> newest_in n 0 (opened c) = Some j -> touch read_at members fuel j n (opened c) = (NoFuel, opened c)).
  { induction fuel0 as [|f IH]; intros a j Ha Hj; [reflexivity|]. destruct (G a Ha) as (j' & e & k & i & A & B & C & D). assert (j' = j) by congruence. subst j'.
    cbn [touch]. rewrite B. cbn [unread l_entry l_init]. rewrite C. destruct (G k D) as (jk & _ & _ & _ & Jk & _). rewrite Jk, (IH k jk D Jk). reflexivity. }
  destruct (G n Hn) as (j & _ & _ & _ & J & _). unfold get_object. rewrite J, (T fuel n j Hn J). reflexivity.
Qed.

(** An object stream with an object whose number no section lists: no object of that stream can be read. *)
Theorem C65_unlisted_refuted : forall c read_at members n k l e i a o fuel,
  entry_of c n 0 = Some e -> xdata e = KComp k i ->
  (exists ek koff ku ms d, entry_of c k 0 = Some ek /\ xdata ek = KUsed koff ku /\ koff <> (-1)%Z /\ read_at k 0 koff = Ok (OStream ms d) /\ members (OStream ms d) = Ok l) ->
  In (a, o) l -> entry_of c a 0 = None -> (2 <= fuel)%nat ->
  fst (get_object read_at members fuel n 0 (opened c)) = Throw EObjectMissing.
Proof.
  intros c read_at members n k l e i a o fuel En Ex (ek & koff & ku & ms & d & Ek & Ekx & Hko & Hkr & Hkm) Hin Ha Hf. destruct fuel as [|[|f]]; [lia|lia|].
  set (st0 := opened c). assert (E0 : Loading.entries st0 = c) by apply Loading.entries_opened.
  assert (G : forall a e1, entry_of c a 0 = Some e1 -> exists j, newest_in a 0 st0 = Some j /\ at_slot j a st0 = Some (unread e1) /\ xgen e1 = 0).
  { intros a' e1 Ha'. destruct (newest_in a' 0 st0) as [j|] eqn:Ej.
    - destruct (Loading.newest_some _ _ _ _ Ej) as (s & A & B & _ & D). rewrite E0 in B. assert (l_entry s = e1) by congruence. exists j. split; [reflexivity|].
      split; [rewrite A; f_equal; rewrite <- H; eapply Loading.at_opened; exact A|congruence].
    - apply Loading.newest_none in Ej. rewrite E0 in Ej. congruence. }
  destruct (G _ _ En) as (jn & Jn & An & Gn). destruct (G _ _ Ek) as (jk & Jk & Ak & Gk).
  assert (Hf1 : forall o s, l_entry (set_reference o s) = l_entry s) by reflexivity.
  assert (P : forall l st, In (a, o) l -> newest_in a 0 st = None -> exists st', place l st = (Throw EObjectMissing, st')).
  { induction l0 as [|[b x] l0 IH]; intros st Hi Hst; [destruct Hi|]. cbn [place]. destruct (newest_in b 0 st) as [j|] eqn:Ej; [|eexists; reflexivity].
    assert (Hi' : In (a, o) l0) by (destruct Hi as [Hi|Hi]; [injection Hi as -> ->; congruence|exact Hi]).
    destruct (at_slot j b st) as [s|]; [|eexists; reflexivity]. destruct (xdata (l_entry s)); [exact (IH st Hi' Hst)| |]; apply IH; try exact Hi'; rewrite Loading.newest_change by apply Hf1; exact Hst. }
  set (sk := OStream ms d). set (st1 := change jk k (set_reference sk) st0).
  assert (K1 : at_slot jk k st1 = Some (set_reference sk (unread ek))).
  { unfold st1. rewrite (Loading.at_change _ (Hf1 sk)), Nat.eqb_refl, N.eqb_refl. cbn [andb]. rewrite Ak. reflexivity. }
  destruct (P l st1 Hin) as (st2 & P1).
  { unfold st1. rewrite Loading.newest_change by apply Hf1. apply Loading.newest_none. rewrite E0. exact Ha. }
  unfold get_object. fold st0. rewrite Jn. remember (S f) as f1. cbn [touch]. rewrite An. cbn [unread l_entry l_init]. rewrite Ex, Jk. subst f1. cbn [touch]. rewrite Ak. cbn [unread l_entry l_init]. rewrite Ekx.
  replace (koff =? -1)%Z with false by lia. rewrite Gk, Hkr. fold sk. fold st1. rewrite K1. unfold sk. cbn [set_reference unread l_marked]. rewrite Hkm, P1. reflexivity.
Qed.

(** ** Cases that meet the hypotheses *)
Definition ent (n : N) (d : xkind) : xentry := {| xnum := n; xgen := 0; xdata := d |}.
(** objects 1 and 2 are in the object stream 3; object 4 was replaced by an update *)
Definition two_sections : list (list xentry) :=
  [[ent 4 (KUsed 90 true)]; [ent 0 (KFree 0); ent 1 (KComp 3 0); ent 2 (KComp 3 1); ent 3 (KUsed 10 true); ent 4 (KUsed 50 true)]].
(** the update replaced object 2, which is in the stream *)
Definition overridden : list (list xentry) :=
  [[ent 2 (KUsed 90 true)]; [ent 0 (KFree 0); ent 1 (KComp 3 0); ent 2 (KComp 3 1); ent 3 (KUsed 10 true); ent 4 (KUsed 50 true)]].
Definition at_offset (_ _ : N) (off : Z) : res obj :=
  if (off =? 10)%Z then Ok (OStream [] [1]) else Ok (OInt off).
Definition in_stream (_ : obj) : res (list (N * obj)) := Ok [(1, OInt 11); (2, OInt 12)].
Definition start (n g : N) : obj :=
  if negb (g =? 0) then ONull else if n =? 1 then OInt 11 else if n =? 2 then OInt 12 else if n =? 3 then OStream [] [1] else if n =? 4 then OInt 90 else ONull.

Example C65_case_orderly : orderly two_sections at_offset in_stream /\ (forall n g, original two_sections at_offset in_stream n g (start n g)) /\
  fst (expected_all two_sections [LRead 4 0; LRead 2 0; LEdit 1 0 (OInt 7); LTake 1 4; LRead 1 0; LRead 9 0] start) =
    [Some (OInt 90); Some (OInt 12); Some (OInt 11); None; Some (OInt 7); Some ONull] /\
  Forall (spares_streams two_sections) [LRead 4 0; LRead 2 0; LEdit 1 0 (OInt 7); LTake 1 4; LRead 1 0; LRead 9 0].
Proof.
  assert (Holds : stream_holds two_sections at_offset in_stream 3 [(1, OInt 11); (2, OInt 12)]).
  { exists (ent 3 (KUsed 10 true)), 10%Z, true, [], [1]. repeat split. }
  assert (Only : forall k, object_stream two_sections k -> k = 3).
  { intros k (l & e & i & Hl & He & Hx). repeat (destruct Hl as [<-|Hl]; [repeat (destruct He as [<-|He]; [cbn in Hx; congruence|]); destruct He|]). destruct Hl. }
  assert (Holds1 : forall l, stream_holds two_sections at_offset in_stream 3 l -> l = [(1, OInt 11); (2, OInt 12)]).
  { intros l (e & off & u & ms & d & _ & _ & _ & H). unfold in_stream in H. congruence. }
  assert (Entry : forall n g e, entry_of two_sections n g = Some e -> g = 0 /\ (e = ent 0 (KFree 0) \/ e = ent 1 (KComp 3 0) /\ n = 1 \/ e = ent 2 (KComp 3 1) /\ n = 2 \/ e = ent 3 (KUsed 10 true) /\ n = 3 \/ e = ent 4 (KUsed 90 true) /\ n = 4 \/ e = ent 4 (KUsed 50 true) /\ n = 4)).
  { intros n g e H. unfold two_sections, ent in *. cbn [entry_of find xnum xgen] in H.
    repeat match type of H with context [if ?b then _ else _] => destruct b eqn:?; cbn [xgen] in H end; try discriminate; injection H as <-; split; try lia;
      repeat first [left; split; [reflexivity|lia] | left; reflexivity | right]; try (split; [reflexivity|lia]). }
  split; [|split; [|split; [reflexivity|]]].
  - constructor.
    + intros n g e off u H Hx. destruct (Entry _ _ _ H) as [-> [->|[[-> _]|[[-> _]|[[-> _]|[[-> _]|[-> _]]]]]]]; cbn in Hx; try discriminate; injection Hx as <- <-; split; try lia; unfold at_offset; cbn; eexists; reflexivity.
    + intros k Hk. apply Only in Hk. subst k. exists [(1, OInt 11); (2, OInt 12)]. split; [exact Holds|]. split.
      * cbn. constructor; [intros [H|[]]; discriminate|]. constructor; [intros []|constructor].
      * intros n o [H|[H|[]]]; injection H as <- <-; [exists (ent 1 (KComp 3 0))|exists (ent 2 (KComp 3 1))]; split; try reflexivity; right; eexists; reflexivity.
    + intros n g e k i H Hx. destruct (Entry _ _ _ H) as [-> [->|[[-> ->]|[[-> ->]|[[-> _]|[[-> _]|[-> _]]]]]]]; cbn in Hx; try discriminate; injection Hx as <- <-; split; try reflexivity; intros l Hl; rewrite (Holds1 l Hl); eexists; [left|right; left]; reflexivity.
  - intros n g. unfold start. destruct (g =? 0) eqn:G; cbn [negb].
    + assert (g = 0) by lia. subst g. destruct (n =? 1) eqn:E1; [assert (n = 1) by lia; subst n; eapply or_stream; [reflexivity|reflexivity|exact Holds|left; reflexivity]|].
      destruct (n =? 2) eqn:E2; [assert (n = 2) by lia; subst n; eapply or_stream; [reflexivity|reflexivity|exact Holds|right; left; reflexivity]|].
      destruct (n =? 3) eqn:E3; [assert (n = 3) by lia; subst n; eapply or_used; reflexivity|].
      destruct (n =? 4) eqn:E4; [assert (n = 4) by lia; subst n; eapply or_used; reflexivity|].
      destruct (entry_of two_sections n 0) as [e|] eqn:E; [|apply or_missing; exact E].
      destruct (Entry _ _ _ E) as [_ [->|[[-> ->]|[[-> ->]|[[-> ->]|[[-> ->]|[-> ->]]]]]]]; try lia. eapply or_free; [exact E|reflexivity].
    + apply or_missing. destruct (entry_of two_sections n g) as [e|] eqn:E; [|reflexivity]. destruct (Entry _ _ _ E) as [-> _]. discriminate.
  - repeat (apply Forall_cons; [cbn; try exact I; try (intros [_ H]; apply Only in H; discriminate)|]). constructor.
Qed.

Example C65_case_overridden : fst (lrun at_offset in_stream 2 [LRead 2 0; LRead 1 0; LRead 2 0] (opened overridden)) = [Ok (OInt 90); Ok (OInt 11); Ok (OInt 12)] /\
  fst (lrun at_offset in_stream 2 [LRead 2 0; LRead 4 0; LRead 2 0] (opened overridden)) = [Ok (OInt 90); Ok (OInt 50); Ok (OInt 90)].
Proof.
  destruct (C65_overridden_refuted overridden at_offset in_stream 2 1 3 [(1, OInt 11); (2, OInt 12)] (ent 2 (KUsed 90 true)) 90 true (OInt 90) (OInt 12) (ent 1 (KComp 3 0)) 0 (OInt 11) 2) as [_ H];
    try reflexivity; try lia.
  - exists (ent 3 (KUsed 10 true)), 10%Z, true, [], [1]. repeat split. lia.
  - cbn. constructor; [intros [H|[]]; discriminate|]. constructor; [intros []|constructor].
  - intros a o [H|[H|[]]]; injection H as <- <-; split; try discriminate.
  - right; left; reflexivity.
  - left; reflexivity.
  - split; [|reflexivity]. destruct (lrun at_offset in_stream 2 [LRead 2 0; LRead 1 0; LRead 2 0] (opened overridden)) as [r st]. apply H.
Qed.

Example C65_case_recursion : forall fuel, fst (get_object at_offset in_stream fuel 5 0 (opened [[ent 5 (KComp 5 0)]])) = NoFuel.
Proof.
  apply (C65_recursion_refuted [[ent 5 (KComp 5 0)]] at_offset in_stream (fun n => n = 5)); [|reflexivity].
  intros n ->. exists (ent 5 (KComp 5 0)), 5, 0. repeat split.
Qed.

Example C65_case_unlisted : fst (get_object at_offset in_stream 2 1 0 (opened [[ent 1 (KComp 3 0); ent 3 (KUsed 10 true)]])) = Throw EObjectMissing.
Proof.
  apply (C65_unlisted_refuted [[ent 1 (KComp 3 0); ent 3 (KUsed 10 true)]] at_offset in_stream 1 3 [(1, OInt 11); (2, OInt 12)] (ent 1 (KComp 3 0)) 0 2 (OInt 12)); try reflexivity; try lia.
  - exists (ent 3 (KUsed 10 true)), 10%Z, true, [], [1]. repeat split. lia.
  - right; left; reflexivity.
Qed.

Print Assumptions C65_reads_partial.
Print Assumptions C65_overridden_refuted.
Print Assumptions C65_recursion_refuted.
Print Assumptions C65_unlisted_refuted.

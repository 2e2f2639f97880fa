(** A full save of a document with a cross-reference stream keeps the document. *)
From Coq Require Import List NArith ZArith Bool Lia String Sorted Permutation Relations.
From Verif.Model Require Import Base SMap Object Equality Token Parser Xref Header FileWrite Chain Merge Unreferenced Duplicates Save StreamFile SaveStream.
From Verif.Spec Require Import Strings Grammar Xref FileWrite Chain Merge Unreferenced Duplicates Save StreamFile SaveStream PackedSave.
From Verif.Proof Require Import Tac SMap Xref Containers StreamObj FileWrite Parser ParserAny Writer Equality Duplicates Unreferenced Merge Save.
From Verif.Props Require Unreferenced FileWrite.
Import ListNotations.
Local Open Scope N_scope.

(** *** Merging *)
Lemma pure_plain : forall c, pure_sections c -> Forall plain_section c.
Proof.
  intros c H. rewrite Forall_forall. intros s Hs. destruct (H s Hs) as (A & B & C). split; [exact A|]. split; [exact B|]. intros e He. destruct (C e He) as (C1 & C2).
  split; [exact C1|]. destruct (xdata e); [exact I|exact C2|exact I].
Qed.
Lemma deleted_kept : forall c, nothing_deleted c -> forall n, kept_number n c.
Proof.
  intros c Hnd n newer s older0 e s' e' Ec He En Hn Hs' He' En' Hd. subst n. apply (Hnd newer s older0 e s' e' Ec He Hn Hs' He'); [congruence|exact Hd].
Qed.
Lemma merged_kind_stream : forall c base, Forall plain_section c -> oldest_stream c base -> merged_kind (fun _ => []) (rev c) = (SStream, s_trailer base).
Proof.
  intros c base Hp (newer & older & -> & Hb & Ho). rewrite rev_app_distr. cbn [rev]. rewrite <- !app_assoc. cbn [app].
  assert (G : forall l r, (forall s, In s l -> s_hybrid s = None /\ s_kind s <> SStream) -> merged_kind (fun _ => []) (l ++ r) = merged_kind (fun _ => []) r).
  { induction l as [|s l IH]; intros r H; [reflexivity|]. cbn [app merged_kind]. destruct (H s (or_introl eq_refl)) as (H1 & H2). rewrite H1. rewrite IH by (intros x Hx; apply H; right; exact Hx).
    destruct (s_kind s); [reflexivity|congruence|reflexivity]. }
  rewrite G. { cbn [merged_kind]. rewrite Hb. reflexivity. }
  intros s Hs. apply in_rev in Hs. split; [|apply Ho; exact Hs]. rewrite Forall_forall in Hp. apply (Hp s). apply in_or_app. right. right. exact Hs.
Qed.
Lemma merged_resolved : forall c m, Forall plain_section c -> (forall n, kept_number n c) -> merge_chain (fun _ => []) (rev c) = Ok [m] ->
  forall n g e, resolve_entry n g c = Some e <-> In e (s_entries m) /\ entry_in_use e = true /\ xnum e = n /\ xgen e = g.
Proof.
  intros c m Hp Hk H n g e. rewrite (resolve_kept n c Hp (Hk n)). assert (F := merged_find _ _ _ H n). destruct (merged_entries _ _ _ H) as (Hs & _ & _).
  assert (Hd : NoDup (map xnum (s_entries m))).
  { apply sorted_nodup. assert (G := with_content_sorted (fun _ => ONull) _ Hs). unfold psorted, with_content in G. rewrite map_map in G. exact G. }
  split.
  - destruct (find (used_for n) (newest_first c)) as [x|] eqn:E; [|discriminate]. destruct (xgen x =? g) eqn:Eg; [|discriminate]. intros X. injection X as ->.
    apply find_some in E. destruct E as (_ & E). unfold used_for in E. apply andb_prop in E. destruct E as (_ & Eu). apply xfind_in in F; [|exact Hd]. destruct F as (F1 & F2). repeat split; try assumption. lia.
  - intros (Hin & Hu & En & Eg). assert (F' : xfind n (s_entries m) = Some e) by (apply xfind_in; auto). rewrite F' in F.
    destruct (find (used_for n) (newest_first c)) as [x|] eqn:E; [injection F as ->; rewrite Eg, N.eqb_refl; reflexivity|].
    destruct (n =? 0); [|discriminate]. injection F as ->. discriminate Hu.
Qed.

(** *** Removing what nothing refers to *)
Definition stream_of (n : N) (items : list (xentry * obj)) (trailer : list (bytes * obj)) : usection :=
  {| u_kind := SStream; u_self := Some n; u_items := items; u_trailer := trailer |}.
Lemma remove_unused_stream : forall order used sn items trailer, psorted items -> exists items',
  remove_unused order used [stream_of sn items trailer] = [stream_of sn items' trailer] /\ psorted items'.
Proof.
  intros order used sn. unfold remove_unused. induction order as [|n order IH]; intros items trailer Hs; cbn [fold_left]; [eauto|].
  destruct (mem n used); [apply IH; exact Hs|]. cbn [remove_entry]. destruct (item_find n (u_items (stream_of sn items trailer))); [|apply IH; exact Hs].
  apply (IH (premove n items) trailer). apply sorted_filter. exact Hs.
Qed.
Lemma stage_unreferenced_stream : forall order sn items trailer c', psorted items -> any_order order ->
  remove_unreferenced (order items) [stream_of sn items trailer] = Ok c' ->
  exists items', c' = [stream_of sn items' trailer] /\ psorted items' /\ incl items' items /\
    (forall e o, In (e, o) items -> xnum e = sn -> In (e, o) items') /\
    (forall e o ek ok k i, In (e, o) items -> xdata e = KComp k i -> In (ek, ok) items -> xnum ek = k -> In (ek, ok) items') /\
    forall n g m gm, mentions n g (held items' m gm) -> held items n g <> ONull -> held items' n g = held items n g.
Proof.
  intros order sn items trailer c' Hs Hord H. set (c := [stream_of sn items trailer]) in *.
  assert (Hd : numbers_distinct c). { unfold numbers_distinct, c. cbn [flat_map u_items stream_of]. rewrite app_nil_r. apply sorted_nodup. exact Hs. }
  assert (Hl : lists_numbers c (order items)).
  { intros n. rewrite (Hord items n). unfold c. split.
    - intros (e & o & A & B). exists (stream_of sn items trailer), e, o. split; [left; reflexivity|]. split; [exact A|exact B].
    - intros (s & e & o & [<-|[]] & A & B). exists e, o. split; [exact A|exact B]. }
  assert (G : exists items', c' = [stream_of sn items' trailer] /\ psorted items').
  { unfold remove_unreferenced in H. apply rbind_ok in H. destruct H as (r & _ & H). apply rbind_ok in H. destruct H as (used & _ & H). apply Ok_inj in H. subst c'. apply remove_unused_stream. exact Hs. }
  destruct G as (items' & -> & Hs'). exists items'. split; [reflexivity|]. split; [exact Hs'|].
  assert (K := Verif.Props.Unreferenced.C29_exactly_reachable (order items) c [stream_of sn items' trailer] Hd Hl H).
  assert (Hk : forall p, In p items' <-> In p items /\ ((exists next, xdata (fst p) = KFree next) \/ reachable c (xnum (fst p)))).
  { intros p. inversion K as [|? ? ? ? (_ & _ & _ & K') _]; subst. apply K'. }
  assert (Hin : incl items' items) by (intros p Hp; apply Hk in Hp; apply Hp).
  split; [exact Hin|]. split; [|split].
  - intros e o He En. apply Hk. split; [exact He|]. right. cbn [fst]. apply (r_self c (stream_of sn items trailer)); [left; reflexivity|reflexivity|cbn [u_self stream_of]; congruence].
  - intros e o ek ok k i He Ed Hek En. apply Hk. split; [exact Hek|]. right. cbn [fst]. rewrite En. apply (r_objects c (stream_of sn items trailer) e o k i); [left; reflexivity|reflexivity|exact He|exact Ed].
  - intros n g m gm Hm Hne. apply held_not_null in Hne. apply held_holds; [exact Hs'|].
    assert (Hobj : forall it n g o, holds it n g o <-> has_object [stream_of sn it trailer] n g o).
    { intros it n0 g0 o. split.
      - intros (e & A & B & C & D). exists (stream_of sn it trailer), e. split; [left; reflexivity|]. split; [exact A|]. split; [exact B|]. split; [exact C|apply in_use_describes; exact D].
      - intros (s & e & [<-|[]] & A & B & C & D). exists e. split; [exact A|]. split; [exact B|]. split; [exact C|apply in_use_describes; exact D]. }
    apply Hobj. apply (Verif.Props.Unreferenced.C29_references_resolve (order items) c _ n g _ Hd Hl H); [apply Hobj; exact Hne|].
    right. exists m, gm, (held items' m gm). split; [|exact Hm]. apply Hobj. destruct (held_cases items' m gm) as [Ho|(E & _)]; [exact Ho|rewrite E in Hm; inversion Hm].
Qed.

(** *** Closing the gaps *)
Lemma gap_moves : forall l : list (xentry * obj), psorted l -> snd (squash_sections 0 [l] []) = gap_map l.
Proof.
  intros l Hs. cbn [squash_sections]. change (squash_entries 0 l l []) with (squash_entries 0 l ([] ++ l) []).
  rewrite squash_entries_spec; [|exact Hs|rewrite Forall_forall; intros; lia|constructor]. reflexivity.
Qed.
Lemma gap_mapped : forall (l : list (xentry * obj)) p, psorted l -> In p l -> mapped (gap_map l) (xnum (fst p)) = rank l (xnum (fst p)).
Proof.
  intros l p Hs Hp. unfold gap_map. rewrite mapped_moves; [|exact Hs|rewrite Forall_forall; intros; lia].
  replace (has_number l (xnum (fst p))) with true. 2: { symmetry. apply existsb_exists. exists p. split; [exact Hp|lia]. }
  cbn [mapped]. destruct (xnum (fst p) =? 0 + rank l (xnum (fst p))) eqn:E0; lia.
Qed.
Lemma rank_inj : forall (l : list (xentry * obj)) p q, In p l -> In q l -> rank l (xnum (fst p)) = rank l (xnum (fst q)) -> xnum (fst p) = xnum (fst q).
Proof.
  intros l p q Hp Hq E. destruct (N.lt_trichotomy (xnum (fst p)) (xnum (fst q))) as [H|[H|H]]; [|exact H|].
  - assert (G := rank_mono l p q Hp H). lia.
  - assert (G := rank_mono l q p Hq H). lia.
Qed.
Lemma rank_first : forall p (l : list (xentry * obj)), psorted (p :: l) -> rank (p :: l) (xnum (fst p)) = 0.
Proof.
  intros p l Hs. destruct (sorted_tail _ _ Hs) as (_ & H). unfold rank. cbn [filter]. replace (xnum (fst p) <? xnum (fst p)) with false by lia.
  replace (filter (fun x => xnum (fst x) <? xnum (fst p)) l) with (@nil (xentry * obj)); [reflexivity|]. clear Hs. induction H as [|x l Hx Hl IH]; [reflexivity|].
  cbn [filter]. replace (xnum (fst x) <? xnum (fst p)) with false by lia. exact IH.
Qed.

(** *** Objects without references *)
Lemma reshaped_same : forall o o', reshaped o o' -> (forall n g, ~ mentions n g o) -> o' = o.
Proof.
  assert (IE : forall l : list (bytes * obj), Forall (fun e => forall o', reshaped (snd e) o' -> (forall n g, ~ mentions n g (snd e)) -> o' = snd e) l ->
    (forall e n g, In e l -> ~ mentions n g (snd e)) -> forall l', Forall2 (fun x y => fst x = fst y /\ reshaped (snd x) (snd y)) l l' -> l' = l).
  { induction 1 as [|x l Hx Hl IH]; intros Hm l' H; inversion H as [|? y ? ? (A & B) H']; subst; [reflexivity|]. f_equal.
    - destruct x as [k v], y as [k' v']. cbn [fst snd] in *. subst k'. f_equal. apply Hx; [exact B|]. intros n g. apply (Hm (k, v)). left. reflexivity.
    - apply IH; [|exact H']. intros e n g He. apply Hm. right. exact He. }
  induction o as [l IH|l IH|l d IH|o Ho] using obj_induction; intros o' H Hm.
  - inversion H as [? F| |? l' F| |]; subst; [destruct F|]. f_equal. assert (Hm' : forall x n g, In x l -> ~ mentions n g x).
    { intros x n g Hx Hn. apply (Hm n g). eapply Spec.Unreferenced.m_arr; eassumption. }
    clear H Hm. revert l' F. induction IH as [|x l Hx Hl IHl]; intros l' F; inversion F; subst; [reflexivity|]. f_equal.
    + apply Hx; [assumption|]. intros n g. apply Hm'. left. reflexivity.
    + apply IHl; [|assumption]. intros z n g Hz. apply Hm'. right. exact Hz.
  - inversion H as [? F| | |? l' F|]; subst; [destruct F|]. f_equal. apply (IE l IH); [|exact F]. intros [k v] n g He Hn. apply (Hm n g). eapply Spec.Unreferenced.m_dict; eassumption.
  - inversion H as [? F| | | |? l' ? F]; subst; [destruct F|]. f_equal. apply (IE l IH); [|exact F]. intros [k v] n g He Hn. apply (Hm n g). eapply Spec.Unreferenced.m_stream; eassumption.
  - destruct o; try destruct Ho; inversion H; subst; try reflexivity. exfalso. eapply Hm. constructor.
Qed.
Lemma reshaped_find : forall m m' key, Forall2 (fun x y : bytes * obj => fst x = fst y /\ reshaped (snd x) (snd y)) m m' ->
  match sm_find key m, sm_find key m' with Some a, Some b => reshaped a b | None, None => True | _, _ => False end.
Proof.
  intros m m' key H. induction H as [|[k v] [k' v'] m m' (A & B) H IH]; [exact I|]. cbn [fst snd sm_find] in *. subst k'.
  destruct (buffer_ltb key k); [exact I|]. destruct (buffer_ltb k key); [exact IH|exact B].
Qed.

(** *** The objects of the merged section *)
Lemma own_cases : forall content self T E e o, In (e, o) (map (own_dictionary self T) (with_content content E)) ->
  In e E /\ ((xnum e, xgen e) <> self /\ o = content e \/ (xnum e, xgen e) = self /\ o = match content e with OStream _ d => OStream T d | x => x end).
Proof.
  intros content self T E e o Hin. apply in_map_iff in Hin. destruct Hin as ([e0 o0] & Ea & Hin). apply in_map_iff in Hin. destruct Hin as (e1 & Eb & Hin). apply pair_equal_spec in Eb. destruct Eb as (-> & <-).
  unfold own_dictionary in Ea. cbn [fst snd] in Ea. assert (Hat : at_id self e0 = true <-> (xnum e0, xgen e0) = self).
  { unfold at_id. destruct self as [sn sg]. cbn [fst snd]. rewrite andb_true_iff, !N.eqb_eq. split; [intros (-> & ->); reflexivity|intros X; injection X as -> ->; auto]. }
  destruct (at_id self e0) eqn:Es.
  - destruct (content e0) eqn:Ec; apply pair_equal_spec in Ea; destruct Ea as (<- & <-); (split; [exact Hin|]); right; (split; [apply Hat; reflexivity|rewrite Ec; reflexivity]).
  - assert (Ea' : (e0, content e0) = (e, o)) by (destruct (content e0); exact Ea). apply pair_equal_spec in Ea'. destruct Ea' as (<- & <-). split; [exact Hin|]. left. split; [|reflexivity]. intros X. apply Hat in X. discriminate X.
Qed.
Lemma own_in : forall content self T E e, In e E ->
  In (e, if at_id self e then match content e with OStream _ d => OStream T d | x => x end else content e) (map (own_dictionary self T) (with_content content E)).
Proof.
  intros content self T E e Hin. apply in_map_iff. exists (e, content e). split; [|apply (in_map (fun e => (e, content e))); exact Hin].
  unfold own_dictionary. cbn [fst snd]. destruct (at_id self e); destruct (content e); reflexivity.
Qed.
Lemma own_sorted : forall content self T E, xsorted E -> psorted (map (own_dictionary self T) (with_content content E)).
Proof.
  intros content self T E H. assert (G := with_content_sorted content E H). unfold psorted in *. rewrite map_map. erewrite map_ext; [exact G|].
  intros [e o]. unfold own_dictionary. cbn [fst snd]. destruct o; try reflexivity. destruct (at_id self e); reflexivity.
Qed.
Lemma at_id_spec : forall self e, at_id self e = true <-> (xnum e, xgen e) = self.
Proof.
  intros [sn sg] e. unfold at_id. cbn [fst snd]. rewrite andb_true_iff, !N.eqb_eq. split; [intros (-> & ->); reflexivity|intros X; injection X as -> ->; auto].
Qed.

Lemma merged_stream_trailer : forall newest older base m, let c := newest :: older in Forall plain_section c -> oldest_stream c base ->
  sm_sorted (s_trailer base) -> sm_keys_ok (s_trailer base) -> merge_chain (fun _ => []) (rev c) = Ok [m] ->
  s_kind m = SStream /\
  agrees (s_trailer m) (fun k => if list_eq_dec N.eq_dec k (str "Prev") then None
     else match sm_find k (s_trailer base) with
          | Some v => Some v
          | None => if list_eq_dec N.eq_dec k (str "Size") then Some (OInt (Z.of_nat (List.length (s_entries newest))))
                    else if in_dec (list_eq_dec N.eq_dec) k trailer_keys then sm_find k (s_trailer newest) else None
          end).
Proof.
  intros newest older base m c Hp Ho B1 B2 H. assert (Hk := merged_kind_stream c base Hp Ho). unfold merge_chain in H. unfold c in *.
  destruct (rev (newest :: older)) as [|s0 r] eqn:Er; [discriminate|]. rewrite Hk in H.
  apply rbind_ok in H. destruct H as (t0 & _ & H). apply rbind_ok in H. destruct H as (t & _ & H). apply Ok_inj in H. 
  assert (Hm : m = {| s_kind := SStream; s_entries := t; s_hybrid := None; s_trailer := sm_remove (str "Prev") (Verif.Model.Containers.dict_merge (s_trailer base) (clone_trailer (last (s0 :: r) s0))) |}) by congruence.
  subst m. cbn [s_kind s_trailer]. split; [reflexivity|].
  assert (El : last (s0 :: r) s0 = newest). { rewrite <- Er. cbn [rev]. apply last_last. }
  rewrite El. destruct (clone_trailer_agrees newest) as (A1 & A2 & A3).
  eapply agrees_ext; [apply agrees_remove; [apply agrees_merge; [exact A2|exact A1|split; [exact B1|split; [exact B2|reflexivity]]]|apply str_bytes]|].
  intros k Hb. unfold Verif.Spec.Containers.fm_del, beq. destruct (list_eq_dec N.eq_dec k (str "Prev")); [reflexivity|]. destruct (sm_find k (s_trailer base)); [reflexivity|]. apply A3. exact Hb.
Qed.

(** *** Looking the same as long as one stays away from some objects *)
Lemma same_store_apart : forall real (f f' : store) (ok : N -> N -> Prop),
  (forall n g n' g', ok n g -> f' n g <> ORef n' g') -> (forall n g, ok n g -> f n g = f' n g) -> (forall m gm n g, ok m gm -> mentions n g (f' m gm) -> ok n g) ->
  forall a, (forall n g, mentions n g a -> ok n g) -> forall k, resembles real f f' k a a.
Proof.
  intros real f f' ok Hn He Hc a Ha k. apply (bisimulation real f f' (fun a b => a = b /\ forall n g, mentions n g a -> ok n g)); [|auto].
  clear a Ha k. intros a b (<- & Ha).
  assert (E : seen_at f a = seen_at f' a /\ (forall n g, seen_at f' a <> ORef n g) /\ forall n g, mentions n g (seen_at f' a) -> ok n g).
  { destruct a; try (split; [reflexivity|split; [discriminate|exact Ha]]). cbn [seen_at]. assert (H0 := Ha _ _ (Spec.Unreferenced.m_ref num gen)). split; [apply He; exact H0|]. split; [intros n g; apply Hn; exact H0|].
    intros n g Hm. apply (Hc _ _ _ _ H0 Hm). }
  destruct E as (-> & H1 & H2). apply agree_self; [exact H1|]. destruct (seen_at f' a) as [|b|z|neg mm p|nm|v|v|n g|l|m|m d]; try exact I; rewrite Forall_forall; intros x Hx; (split; [reflexivity|]); intros n g Hm; apply H2.
  - eapply Spec.Unreferenced.m_arr; eassumption.
  - destruct x as [kx x]. eapply Spec.Unreferenced.m_dict; eassumption.
  - destruct x as [kx x]. eapply Spec.Unreferenced.m_stream; eassumption.
Qed.
(** the objects of the file that was written *)
Lemma stream_resembles : forall real self l stm (start : store) (bad : N -> N -> Prop), psorted l -> no_references l ->
  (forall e o, In (e, o) l -> entry_in_use e = false -> exists next, xdata e = KFree next) ->
  reopened_objects self l stm start -> bad (fst self) (snd self) -> (forall e o, In (e, o) l -> is_object_stream l (xnum e) -> bad (xnum e) (xgen e)) ->
  (forall m gm n g, ~ bad m gm -> mentions n g (held l m gm) -> ~ bad n g) ->
  forall a, (forall n g, mentions n g a -> ~ bad n g) -> forall k, resembles real (held l) start k a a.
Proof.
  intros real self l stm start bad Hs Hn Hfree (R1 & _ & R3 & _) Hself Hobj Hc a Ha k.
  assert (Hsame : forall n g, ~ bad n g -> start n g = held l n g \/ same_object (held l n g) (start n g)).
  { intros n g Hb. assert (Hno : (n, g) <> self) by (intros <-; apply Hb; exact Hself). destruct (held_cases l n g) as [(e & A & B & C & D)|(E & Hnone)].
    - specialize (R3 e _ A). rewrite B, C in R3. specialize (R3 Hno). destruct (xdata e) eqn:Ed.
      + unfold entry_in_use in D. rewrite Ed in D. discriminate D.
      + right. apply R3. intros Hk. apply Hb. rewrite <- C. rewrite <- B in *. apply (Hobj _ _ A Hk).
      + left. exact R3.
    - left. rewrite E. destruct (find (fun p => (xnum (fst p) =? n) && (xgen (fst p) =? g)) l) as [[e o]|] eqn:Ef.
      + apply find_some in Ef. destruct Ef as (Hin & Ef). cbn [fst] in Ef. apply andb_prop in Ef. destruct Ef as (E1 & E2). apply N.eqb_eq in E1, E2.
        specialize (R3 e o Hin). rewrite E1, E2 in R3. specialize (R3 Hno). destruct (entry_in_use e) eqn:Eu; [exfalso; apply (Hnone o); exists e; auto|].
        destruct (Hfree e o Hin Eu) as (next & Ed). rewrite Ed in R3. exact R3.
      + apply R1. intros e o Hin X. injection X as E1 E2. apply (find_none _ _ Ef) in Hin. cbn [fst] in Hin. lia. }
  assert (Hagree : forall (R : obj -> obj -> Prop) o, (forall n g, o <> ORef n g) -> (forall x, (forall n g, mentions n g x -> mentions n g o) -> R x x) -> agree real R o o).
  { intros R o Ho HR. apply agree_self; [exact Ho|]. destruct o as [|b|z|neg mm p|nm|v|v|n g|l0|m|m d]; try exact I; rewrite Forall_forall; intros x Hx; apply HR; intros n g Hm.
    - eapply Spec.Unreferenced.m_arr; eassumption.
    - destruct x as [kx x]. eapply Spec.Unreferenced.m_dict; eassumption.
    - destruct x as [kx x]. eapply Spec.Unreferenced.m_stream; eassumption. }
  apply (bisimulation real _ _ (fun a b => a = b /\ forall n g, mentions n g a -> ~ bad n g)); [|auto]. clear a Ha k. intros a b (<- & Ha).
  assert (Hdirect : forall o, (forall n g, o <> ORef n g) -> (forall n g, mentions n g o -> ~ bad n g) -> agree real (fun a b => a = b /\ forall n g, mentions n g a -> ~ bad n g) o o).
  { intros o Ho Hb. apply Hagree; [exact Ho|]. intros x Hx. split; [reflexivity|]. intros n g Hm. apply Hb, Hx, Hm. }
  destruct a as [|b|z|neg mm p|nm|v|v|n g|l0|m|m d]; cbn [seen_at]; try (apply Hdirect; [discriminate|exact Ha]).
  assert (H0 := Ha _ _ (Spec.Unreferenced.m_ref n g)). assert (Hcl := fun n' g' => Hc n g n' g' H0). assert (Hr := held_no_reference l Hn n g).
  destruct (Hsame n g H0) as [->|S]; [apply Hdirect; [exact Hr|exact Hcl]|]. destruct S as [o _|m m' data H1 H2]; [apply Hdirect; [exact Hr|exact Hcl]|].
  apply ag_stream. split; intros k v Hin Hk; exists v; (split; [apply (H1 k v); [intros ->; apply Hk; left; reflexivity|exact Hin]|]); (split; [reflexivity|]); intros n' g' Hm; apply Hcl.
  - eapply Spec.Unreferenced.m_stream; eassumption.
  - apply (H1 k v) in Hin; [|intros ->; apply Hk; left; reflexivity]. eapply Spec.Unreferenced.m_stream; eassumption.
Qed.

Lemma drop_freed_keeps : forall l p, In p l -> entry_in_use (fst p) = true -> In p (drop_freed l).
Proof. intros [|q l] p Hin Hu; [exact Hin|]. destruct Hin as [->|Hin]; [left; reflexivity|right]. apply filter_In. auto. Qed.
Lemma sm_find_values : forall (h : obj -> obj) key (m : list (bytes * obj)), sm_find key (map (fun e => (fst e, h (snd e))) m) = option_map h (sm_find key m).
Proof.
  intros h key. induction m as [|[k v] m IH]; [reflexivity|]. cbn [map fst snd sm_find]. destruct (buffer_ltb key k); [reflexivity|]. destruct (buffer_ltb k key); [exact IH|reflexivity].
Qed.
Lemma mentions_dict_stream : forall n g m d, mentions n g (ODict m) <-> mentions n g (OStream m d).
Proof. intros n g m d. split; intros H; inversion H; subst; [eapply Spec.Unreferenced.m_stream|eapply Spec.Unreferenced.m_dict]; eassumption. Qed.
Lemma sm_sorted_map : forall l l' : list (bytes * obj), map fst l = map fst l' -> sm_sorted l -> sm_sorted l'.
Proof.
  intros l l' E H. unfold sm_sorted in *. revert l' E. induction H as [|x l H IH Hx]; intros [|y l'] E; try discriminate; [constructor|].
  injection E as E1 E2. constructor; [apply IH; exact E2|]. rewrite Forall_forall in *. intros z Hz. apply (in_map fst) in Hz. rewrite <- E2 in Hz. apply in_map_iff in Hz. destruct Hz as (z' & Ez & Hz).
  specialize (Hx z' Hz). unfold bytes in *. rewrite E1, Ez in Hx. exact Hx.
Qed.
Lemma sm_keys_map : forall l l' : list (bytes * obj), map fst l = map fst l' -> sm_keys_ok l -> sm_keys_ok l'.
Proof.
  intros l l' E H. unfold sm_keys_ok in *. rewrite Forall_forall in *. intros z Hz. apply (in_map fst) in Hz. rewrite <- E in Hz. apply in_map_iff in Hz. destruct Hz as (z' & Ez & Hz). specialize (H z' Hz). unfold bytes in *. rewrite <- Ez. exact H.
Qed.

(** *** All of it *)
(** *** Objects in object streams *)
Lemma unreferenced_exact : forall order sn items trailer items', psorted items -> any_order order ->
  remove_unreferenced (order items) [stream_of sn items trailer] = Ok [stream_of sn items' trailer] ->
  forall p, In p items' <-> In p items /\ ((exists next, xdata (fst p) = KFree next) \/ reachable [stream_of sn items trailer] (xnum (fst p))).
Proof.
  intros order sn items trailer items' Hs Hord H p. set (c := [stream_of sn items trailer]) in *.
  assert (Hd : numbers_distinct c). { unfold numbers_distinct, c. cbn [flat_map u_items stream_of]. rewrite app_nil_r. apply sorted_nodup. exact Hs. }
  assert (Hl : lists_numbers c (order items)).
  { intros n. rewrite (Hord items n). unfold c. split.
    - intros (e & o & A & B). exists (stream_of sn items trailer), e, o. split; [left; reflexivity|]. split; [exact A|exact B].
    - intros (s & e & o & [<-|[]] & A & B). exists e, o. split; [exact A|exact B]. }
  assert (K := Verif.Props.Unreferenced.C29_exactly_reachable (order items) c [stream_of sn items' trailer] Hd Hl H).
  inversion K as [|? ? ? ? (_ & _ & _ & K') _]; subst. apply K'.
Qed.
Lemma stream_holds : forall sn items trailer n g o, has_object [stream_of sn items trailer] n g o <-> holds items n g o.
Proof.
  intros sn it trailer n0 g0 o. split.
  - intros (s & e & [<-|[]] & A & B & C & D). exists e. split; [exact A|]. split; [exact B|]. split; [exact C|apply in_use_describes; exact D].
  - intros (e & A & B & C & D). exists (stream_of sn it trailer), e. split; [left; reflexivity|]. split; [exact A|]. split; [exact B|]. split; [exact C|apply in_use_describes; exact D].
Qed.
Lemma round_compressed : forall hash l trailer l' trailer', ids_distinct l -> round hash l trailer = Ok (Some (l', trailer')) ->
  forall x, In x l -> d_comp x = true -> exists y, In y l' /\ d_id y = d_id x /\ d_comp y = true.
Proof.
  intros hash l trailer l' trailer' Hd E x Hx Hc. unfold round in E. apply rbind_ok in E. destruct E as (dups & Escan & E).
  destruct (scan_spec hash l l [] [] dups) as (uniq & Hg & _); auto; try (cbn; tauto); [constructor|].
  destruct dups as [|d dups]; [discriminate|]. apply rbind_ok in E. destruct E as (l1 & E1 & E). apply rbind_ok in E. destruct E as (tr & E2 & E). injection E as <- <-.
  apply redirect_items_shaped in E1. cbn [app] in E1. assert (Hk : In (keep_hash hash x) (map (keep_hash hash) l)) by (apply in_map; exact Hx).
  destruct (Forall2_In_l' _ _ _ _ E1 Hk) as (y & Hy & (Y1 & Y2 & _)). exists y. rewrite keep_id in Y1. split; [|split; [congruence|rewrite <- Y2; unfold keep_hash; rewrite Hc; exact Hc]].
  apply in_release. split; [exact Hy|]. intros Hin. unfold keys_of in Hin. apply in_map_iff in Hin. destruct Hin as ([[k h] r] & Ek & Hin). cbn [fst] in Ek.
  unfold good_dups in Hg. rewrite Forall_forall in Hg. destruct (Hg _ Hin) as ((z & Hz & Ez & Cz & _) & _).
  assert (z = x) by (apply (distinct_item l); [exact Hd|exact Hz|exact Hx|congruence]). subst z. congruence.
Qed.
Lemma rounds_compressed : forall hash fuel l trailer l' trailer', ids_distinct l -> rounds hash fuel l trailer = Ok (l', trailer') ->
  forall x, In x l -> d_comp x = true -> exists y, In y l' /\ d_id y = d_id x.
Proof.
  intros hash. induction fuel as [|fuel IH]; intros l trailer l' trailer' Hd E x Hx Hc; [discriminate|]. cbn [rounds] in E.
  apply rbind_ok in E. destruct E as (r & E1 & E2). destruct r as [[l2 t2]|].
  - destruct (round_shrinks _ _ _ _ _ Hd E1) as (Hd2 & _). destruct (round_compressed _ _ _ _ _ Hd E1 x Hx Hc) as (y & Hy & Ey & Cy).
    destruct (IH _ _ _ _ Hd2 E2 y Hy Cy) as (z & Hz & Ez). exists z. split; [exact Hz|congruence].
  - injection E2 as <- <-. exists (keep_hash hash x). split; [apply in_map; exact Hx|apply keep_id].
Qed.
Lemma compressed_kept : forall real hash arrange items trailer items3 trailer3, any_arrangement arrange -> psorted items ->
  merge_equal real hash arrange items trailer = Ok (items3, trailer3) ->
  forall e o k i, In (e, o) items -> xdata e = KComp k i -> exists o', In (e, o') items3.
Proof.
  intros real hash arrange items trailer items3 trailer3 Harr Hs H e o k i Hin Ed. unfold merge_equal in H. apply rbind_ok in H. destruct H as ([l' t'] & Hr & H).
  set (l := arrange (map (ditem_of real) (filter (fun p => entry_in_use (fst p)) items))) in *.
  assert (Hu : entry_in_use e = true) by (unfold entry_in_use; rewrite Ed; reflexivity).
  assert (P := Harr (map (ditem_of real) (filter (fun p => entry_in_use (fst p)) items))). fold l in P.
  assert (Hl : In (ditem_of real (e, o)) l) by (apply (Permutation_in _ (Permutation_sym P)); apply in_map; apply filter_In; auto).
  assert (Hid : ids_distinct l).
  { unfold ids_distinct. assert (P2 := Permutation_map d_id P).
    apply (Permutation_NoDup (Permutation_sym P2)). rewrite map_map. assert (Hf := sorted_filter (fun p => entry_in_use (fst p)) items Hs). apply sorted_nodup in Hf.
    apply (NoDup_map_inv fst). rewrite map_map. exact Hf. }
  destruct (rounds_compressed _ _ _ _ _ _ Hid Hr (ditem_of real (e, o)) Hl) as (y & Hy & Ey); [cbn [ditem_of d_comp fst]; rewrite Ed; reflexivity|].
  apply Ok_inj in H. apply pair_equal_spec in H. destruct H as (<- & _).
  exists (snd (after_duplicates l' (e, o))). apply in_map_iff. exists (e, o). split; [|exact Hin]. unfold after_duplicates. cbn [fst snd]. rewrite Hu.
  destruct (find_item l' (xnum e, xgen e)) as [z|] eqn:Ef; [reflexivity|]. exfalso.
  assert (G : forall q, In q l' -> d_id q <> (xnum e, xgen e)).
  { clear - Ef. induction l' as [|a l' IH]; intros q Hq; [destruct Hq|]. cbn [find_item] in Ef. destruct (same_id (d_id a) (xnum e, xgen e)) eqn:Es; [discriminate Ef|].
    destruct Hq as [<-|Hq]; [|apply IH; assumption]. intros X. apply same_id_eq in X. congruence. }
  apply (G y Hy). rewrite Ey. reflexivity.
Qed.

Lemma optimized_packed : forall real hash content order arrange supported self base newest older items5 self5,
  let c := newest :: older in let f := document_objects content c in
  any_order order -> any_arrangement arrange ->
  pure_sections c -> oldest_stream c base -> nothing_deleted c ->
  (Z.of_nat (S (List.length (flat_map s_entries c))) <= 2147483647)%Z ->
  stores_objects f -> no_loose_reference f (ODict (s_trailer newest)) -> hashes_steady real hash f ->
  compressed_document supported content c self base newest ->
  (forall m m', same_filters m m' -> supported m -> supported m') ->
  optimize_stream real hash content order arrange self c = Ok (items5, self5) ->
  ((text_fits items5 -> document supported self5 (dictionary_of self5 items5) items5) /\ no_references items5 /\
  exists bad : N -> N -> Prop, bad (fst self5) (snd self5) /\ (forall e o, In (e, o) items5 -> is_object_stream items5 (xnum e) -> bad (xnum e) (xgen e)) /\
    (forall m gm n g, ~ bad m gm -> mentions n g (held items5 m gm) -> ~ bad n g) /\
    (forall n g, mentions n g (ODict (dictionary_of self5 items5)) -> ~ bad n g) /\
    forall key, In key [str "Root"; str "Info"; str "ID"] ->
      match sm_find key (s_trailer newest), sm_find key (dictionary_of self5 items5) with
      | Some a, Some b => same_document real f (held items5) a b
      | None, None => True
      | _, _ => False
      end) /\ packed_as_before c self f (s_trailer newest) items5.
Proof.
  intros real hash content order arrange supported self base newest older items5 self5 c f Hord Harr Hpure Hold Hnd Hcount Hst Hloose Hsteady Hcp Hcd Hopt.
  assert (Hp := pure_plain c Hpure). assert (Hkept := deleted_kept c Hnd).
  unfold optimize_stream in Hopt. apply rbind_ok in Hopt. destruct Hopt as (c1 & Hm & Hopt). destruct c1 as [|m [|? ?]]; try discriminate Hopt.
  destruct (merged_entries _ _ _ Hm) as (Hxs1 & Hent1 & Hlen1). assert (Hres := merged_resolved c m Hp Hkept Hm).
  destruct (cp_self _ _ _ _ _ _ Hcp) as (eS & offS & dS & HeS & HdS & HoffS & HcS).
  assert (HeS' := proj1 (Hres _ _ _) HeS). destruct HeS' as (HinS & HuS & EnS & EgS).
  assert (HfS : f (fst self) (snd self) = OStream (s_trailer base) dS) by (unfold f, document_objects; rewrite HeS; exact HcS).
  set (B := s_trailer base) in *.
  assert (HstB : storable (OStream B dS)) by (rewrite <- HfS; apply Hst).
  assert (HwB : writable (ODict B) /\ (forall v, In (str "Length", v) B -> exists z, v = OInt z /\ (0 <= z)%Z)) by (inversion HstB as [? W|]; subst; [inversion W|auto]).
  destruct HwB as (HwB & HlenB). destruct (writable_parts _ HwB) as (B1 & B2 & B3).
  destruct (cp_trailer _ _ _ _ _ _ Hcp) as (HwN & HlenN). destruct (writable_parts _ HwN) as (N1 & N2 & N3).
  destruct (merged_stream_trailer newest older base m Hp Hold B1 B2 Hm) as (Hkind & Tsort & Tkeys & Tfind). fold B in Tfind.
  set (T1 := s_trailer m) in *.
  change (map (fun e => (e, content e)) (s_entries m)) with (with_content content (s_entries m)) in Hopt.
  set (items1 := map (own_dictionary self T1) (with_content content (s_entries m))) in *.
  assert (Hs1 : psorted items1) by (apply own_sorted; exact Hxs1).
  assert (Hsize : (Z.of_nat (List.length (s_entries newest)) <= 2147483647)%Z). { unfold c in Hcount. cbn [flat_map] in Hcount. rewrite app_length in Hcount. lia. }
  (* the trailer *)
  assert (Tin : forall key x, In (key, x) T1 -> (key = str "Size" /\ x = OInt (Z.of_nat (List.length (s_entries newest)))) \/ In (key, x) (s_trailer newest) \/ In (key, x) B).
  { intros key x Hin. assert (Hb : all_bytes key) by (unfold sm_keys_ok in Tkeys; rewrite Forall_forall in Tkeys; apply (Tkeys (key, x) Hin)).
    apply sm_find_in in Hin; [|assumption..]. rewrite Tfind in Hin by exact Hb. destruct (list_eq_dec _ key (str "Prev")); [discriminate|].
    destruct (sm_find key B) as [y|] eqn:EB; [injection Hin as ->; right; right; apply sm_find_in; assumption|].
    destruct (list_eq_dec _ key (str "Size")) as [->|_]; [injection Hin as <-; left; auto|]. destruct (in_dec _ _ _); [right; left|discriminate]. apply sm_find_in; assumption. }
  assert (Tw : writable (ODict T1)).
  { apply writable_from; [exact Tsort|exact Tkeys|]. rewrite Forall_forall in *. intros [key x] Hin. cbn [snd]. destruct (Tin key x Hin) as [(_ & ->)|[Hin'|Hin']].
    - split; [apply w_int; lia|discriminate].
    - apply (N3 _ Hin').
    - apply (B3 _ Hin'). }
  assert (TwS : storable (OStream T1 dS)).
  { apply st_stream; [exact Tw| |inversion HstB as [? W|]; subst; [inversion W|assumption]]. intros v Hv. destruct (Tin _ v Hv) as [(X & _)|[Hin'|Hin']]; [discriminate X|apply HlenN; exact Hin'|apply HlenB; exact Hin']. }
  assert (TwE : storable (OStream T1 [])).
  { apply st_stream; [exact Tw| |reflexivity]. intros v Hv. destruct (Tin _ v Hv) as [(X & _)|[Hin'|Hin']]; [discriminate X|apply HlenN; exact Hin'|apply HlenB; exact Hin']. }
  assert (Tment : forall n g, mentions n g (ODict T1) -> mentions n g (ODict (s_trailer newest)) \/ mentions n g (ODict B)).
  { intros n g Hmn. inversion Hmn as [| |? key x Hin Hmx|]; subst. destruct (Tin key x Hin) as [(_ & ->)|[Hin'|Hin']]; [inversion Hmx|left|right]; eapply Spec.Unreferenced.m_dict; eassumption. }
  (* the objects of the merged section *)
  assert (HfE : forall e, In e (s_entries m) -> entry_in_use e = true -> f (xnum e) (xgen e) = content e).
  { intros e He Hu. unfold f, document_objects. rewrite (proj2 (Hres (xnum e) (xgen e) e)); [reflexivity|]. auto. }
  assert (HnumE : forall e, In e (s_entries m) -> (xnum e, xgen e) = self -> e = eS).
  { intros e He E. apply (nums_same (s_entries m)); [|exact He|exact HinS|rewrite EnS, <- E; reflexivity].
    apply sorted_nodup. assert (G := with_content_sorted (fun _ => ONull) _ Hxs1). unfold psorted, with_content in G. rewrite map_map in G. exact G. }
  assert (Hid1 : forall e o, In (e, o) items1 -> entry_in_use e = true -> In e (s_entries m) /\ (((xnum e, xgen e) <> self /\ o = f (xnum e) (xgen e) /\ o = content e) \/ (e = eS /\ o = OStream T1 dS))).
  { intros e o Hin Hu. destruct (own_cases _ _ _ _ _ _ Hin) as (He & [(H1 & H2)|(H1 & H2)]); (split; [exact He|]).
    - left. split; [exact H1|]. split; [|exact H2]. rewrite (HfE e He Hu). exact H2.
    - right. assert (e = eS) by (apply HnumE; assumption). subst e. split; [reflexivity|]. rewrite HcS in H2. exact H2. }
  assert (Hout1 : forall e, In e (s_entries m) -> (xnum e, xgen e) <> self -> In (e, content e) items1).
  { intros e He Hne. assert (G := own_in content self T1 _ e He). fold items1 in G. destruct (at_id self e) eqn:Ea; [exfalso; apply Hne; apply at_id_spec; exact Ea|exact G]. }
  assert (HS1 : In (eS, OStream T1 dS) items1).
  { assert (G := own_in content self T1 _ eS HinS). fold items1 in G. rewrite (proj2 (at_id_spec self eS)) in G by (rewrite EnS, EgS; destruct self; reflexivity). rewrite HcS in G. exact G. }
  assert (Hself_id : forall n g, (n, g) = self -> n = fst self /\ g = snd self) by (intros n g <-; auto).
  assert (Hh1s : held items1 (fst self) (snd self) = OStream T1 dS) by (apply held_holds; [exact Hs1|exists eS; auto]).
  assert (Hh1 : forall n g, (n, g) <> self -> held items1 n g = f n g).
  { intros n g Hne. destruct (held_cases items1 n g) as [(e & A & E1 & E2 & D)|(E & Hnone)].
    - destruct (Hid1 e _ A D) as (_ & [(_ & H2 & _)|(-> & _)]); [rewrite E1, E2 in H2; exact H2|]. exfalso. apply Hne. rewrite <- E1, <- E2, EnS, EgS. destruct self; reflexivity.
    - rewrite E. unfold f, document_objects. destruct (resolve_entry n g c) as [e|] eqn:Er; [exfalso|reflexivity]. apply Hres in Er. destruct Er as (A1 & A2 & A3 & A4).
      apply (Hnone (content e)). exists e. split; [apply Hout1; [exact A1|congruence]|]. auto. }
  assert (Hid_dec : forall n g, (n, g) = self \/ (n, g) <> self).
  { intros n g. destruct self as [sn sg]. destruct (N.eq_dec n sn) as [->|Hn]; [|right; congruence]. destruct (N.eq_dec g sg) as [->|Hg]; [left; reflexivity|right; congruence]. }
  assert (Hnn : forall n g, f n g <> ONull -> held items1 n g <> ONull).
  { intros n g H. destruct (Hid_dec n g) as [E|E]; [destruct (Hself_id n g E) as (-> & ->); rewrite Hh1s; discriminate|rewrite (Hh1 n g E); exact H]. }
  assert (Hdata1 : forall n g m0 d, held items1 n g = OStream m0 d -> exists m1, f n g = OStream m1 d).
  { intros n g m0 d H. destruct (Hid_dec n g) as [E|E]; [destruct (Hself_id n g E) as (-> & ->); rewrite Hh1s in H; injection H as _ <-; eauto|rewrite (Hh1 n g E) in H; eauto]. }
  set (stg := storage c self) in *.
  assert (Hstg_self : stg (fst self) (snd self)) by (left; destruct self; reflexivity).
  assert (Hment1 : forall n g m0 gm, mentions n g (held items1 m0 gm) -> (mentions n g (ODict (s_trailer newest)) \/ exists m1 gm1, mentions n g (f m1 gm1)) /\ (stg n g -> stg m0 gm)).
  { intros n g m0 gm H. destruct (Hid_dec m0 gm) as [E|E].
    - destruct (Hself_id m0 gm E) as (-> & ->). rewrite Hh1s in H. apply mentions_dict_stream in H. split; [|intros _; exact Hstg_self]. destruct (Tment n g H) as [H'|H']; [left; exact H'|right].
      exists (fst self), (snd self). rewrite HfS. apply mentions_dict_stream. exact H'.
    - rewrite (Hh1 m0 gm E) in H. split; [right; eauto|]. intros Hs. destruct (cp_apart _ _ _ _ _ _ Hcp n g Hs) as (_ & _ & Hap). apply Hap. exact H. }
  assert (HTapp1 : forall n g, mentions n g (ODict T1) -> ~ stg n g).
  { intros n g H Hs. destruct (cp_apart _ _ _ _ _ _ Hcp n g Hs) as (H1 & H2 & _). destruct (Tment n g H); contradiction. }
  assert (Hcl1 : forall n g m0 gm, mentions n g (held items1 m0 gm) -> held items1 n g <> ONull).
  { intros n g m0 gm H. apply Hnn. apply Hloose. apply (Hment1 n g m0 gm H). }
  assert (Hst1 : forall e o, In (e, o) items1 -> entry_in_use e = true -> storable o /\ forall n' g', o <> ORef n' g').
  { intros e o Hin Hu. destruct (Hid1 e o Hin Hu) as (_ & [(_ & -> & _)|(_ & ->)]); [apply Hst|]. split; [exact TwS|discriminate]. }
  assert (Hstg_stream : forall n g, stg n g -> exists m0 d, f n g = OStream m0 d).
  { intros n g [E|(-> & n1 & g1 & e & i & He & Ed)]; [destruct (Hself_id n g E) as (-> & ->); eauto|].
    destruct (cp_streams _ _ _ _ _ _ Hcp _ _ _ _ _ He Ed) as (_ & _ & e' & off & m0 & d & He' & _ & Hc' & _). exists m0, d. unfold f, document_objects. rewrite He'. exact Hc'. }
  (* unreferenced objects *)
  rewrite Hkind in Hopt. apply rbind_ok in Hopt. destruct Hopt as (c2 & Hun & Hopt).
  destruct (stage_unreferenced_stream order (fst self) items1 T1 c2 Hs1 Hord Hun) as (items2 & -> & Hs2 & Hin2 & Hself2 & Hobj2 & Hh2). cbn [u_items stream_of] in Hopt.
  assert (HS2 : In (eS, OStream T1 dS) items2) by (apply Hself2; [exact HS1|exact EnS]).
  assert (Hsub2 : forall e o, In (e, o) items2 -> entry_in_use e = true -> held items2 (xnum e) (xgen e) = o /\ held items1 (xnum e) (xgen e) = o).
  { intros e o Hin Hu. split; apply held_holds; try assumption; exists e; auto. }
  assert (Hsub2' : forall n g, held items2 n g <> ONull -> held items1 n g = held items2 n g).
  { intros n g H. apply held_not_null in H. destruct H as (e & A & E1 & E2 & D). destruct (Hsub2 e _ A D) as (_ & G). rewrite E1, E2 in G. exact G. }
  assert (Hmen2 : forall n g m0 gm, mentions n g (held items2 m0 gm) -> mentions n g (held items1 m0 gm)).
  { intros n g m0 gm H. rewrite (Hsub2' m0 gm); [exact H|]. intros E. rewrite E in H. inversion H. }
  assert (Hcl2 : forall n g m0 gm, mentions n g (held items2 m0 gm) -> held items2 n g <> ONull).
  { intros n g m0 gm H. assert (G := Hcl1 _ _ _ _ (Hmen2 _ _ _ _ H)). rewrite (Hh2 n g m0 gm H G). exact G. }
  assert (Hn2 : no_references items2) by (intros e o n g Hin Hu; apply (Hst1 e o (Hin2 _ Hin) Hu)).
  assert (Hdata2 : forall n g m0 d, held items2 n g = OStream m0 d -> exists m1, f n g = OStream m1 d).
  { intros n g m0 d H. apply (Hdata1 n g m0). rewrite Hsub2'; congruence. }
  assert (Hown : forall n g m0 d n' g' m', stg n g -> held items2 n g = OStream m0 d -> held items2 n' g' = OStream m' d -> n' = n /\ g' = g).
  { intros n g m0 d n' g' m' Hs H H'. destruct (Hdata2 _ _ _ _ H) as (x & Hx). destruct (Hdata2 _ _ _ _ H') as (x' & Hx'). exact (cp_data _ _ _ _ _ _ Hcp n g x d n' g' x' Hs Hx Hx'). }
  assert (Hcomp2 : forall e o k i, In (e, o) items2 -> xdata e = KComp k i -> xgen e = 0 /\ i < 2 ^ 63 /\ writable o /\ k <> fst self /\ stg k 0 /\
     exists ek off mk dk, In (ek, OStream mk dk) items2 /\ xnum ek = k /\ xgen ek = 0 /\ xdata ek = KUsed off true /\ supported mk /\ direct_filters mk).
  { intros e o k i Hin Ed. assert (Hu : entry_in_use e = true) by (unfold entry_in_use; rewrite Ed; reflexivity). destruct (Hid1 e o (Hin2 _ Hin) Hu) as (He & [(Hne & Ho & Ho')|(-> & _)]); [|congruence].
    assert (Hr : resolve_entry (xnum e) (xgen e) c = Some e) by (apply Hres; auto).
    destruct (cp_streams _ _ _ _ _ _ Hcp _ _ _ _ _ Hr Ed) as (W & Hk & e' & off & mk & dk & He' & Ed' & Hc' & Hsup & Hdir).
    assert (He'' := proj1 (Hres _ _ _) He'). destruct He'' as (A1 & A2 & A3 & A4).
    assert (Hgi : xgen e = 0 /\ i < 2 ^ 63).
    { destruct (Hent1 e He) as [->|((s & Hs & Hes) & _)]; [discriminate Ed|]. apply in_rev in Hs. rewrite Forall_forall in Hp. rewrite (plain_items s (Hp s Hs)) in Hes. destruct (Hpure s Hs) as (_ & _ & Hall). destruct (Hall e Hes) as (_ & G). rewrite Ed in G. exact G. }
    split; [apply Hgi|]. split; [apply Hgi|]. split; [rewrite Ho'; exact W|]. split; [exact Hk|]. split.
    { right. split; [reflexivity|]. exists (xnum e), (xgen e), e, i. auto. }
    exists e', off, mk, dk. split; [|auto]. apply (Hobj2 e o e' (OStream mk dk) k i); [apply Hin2; exact Hin|exact Ed| |exact A3].
    rewrite <- Hc'. apply Hout1; [exact A1|]. rewrite A3. intros E. apply Hk. rewrite <- E. reflexivity. }
  assert (Hown2 : forall e o, In (e, o) items2 -> entry_in_use e = true -> stored e ->
    steady hash {| d_num := xnum e; d_gen := xgen e; d_comp := false; d_value := value_of real o; d_cache := 0 |} \/
    exists m0 d, o = OStream m0 d /\ forall e' m', In (e', OStream m' d) items2 -> entry_in_use e' = true -> xnum e' = xnum e /\ xgen e' = xgen e).
  { intros e o Hin Hu _. destruct (Hid1 e o (Hin2 _ Hin) Hu) as (He & [(Hne & Ho & Ho')|(-> & ->)]).
    - destruct (Hsteady (xnum e) (xgen e)) as [S1|(m0 & d & E & S1)]; [left; rewrite Ho; exact S1|right]. exists m0, d. split; [rewrite Ho; exact E|].
      intros e' m' Hin' Hu'. destruct (Hsub2 e' _ Hin' Hu') as (_ & G). destruct (Hdata1 _ _ _ _ G) as (m1 & G'). apply (S1 _ _ _ G').
    - right. exists T1, dS. split; [reflexivity|]. intros e' m' Hin' Hu'. destruct (Hsub2 e' _ Hin' Hu') as (G & _). destruct (Hsub2 _ _ HS2 HuS) as (GS & _).
      rewrite EnS, EgS in *. apply (Hown _ _ _ _ _ _ _ Hstg_self GS G). }
  (* equal objects *)
  apply rbind_ok in Hopt. destruct Hopt as ([items3 T3'] & Hmg & Hopt).
  destruct (duplicates_merged real hash arrange items2 [] items3 T3' Harr Hs2 Hn2 Hown2 Hmg) as (Hnums3 & Hent3 & Hsurv3 & _).
  assert (Hs3 : psorted items3) by (unfold psorted; rewrite Hnums3; exact Hs2).
  assert (Hent3' : forall e o, In (e, o) items3 -> entry_in_use e = true -> exists o0, In (e, o0) items2 /\ redirected real (held items2) (held items3) o0 o).
  { intros e o Hin Hu. destruct (Hent3 e o Hin) as [(o0 & A & [(X & _)|(_ & R)])|(n & ->)]; [congruence|eauto|discriminate Hu]. }
  assert (Hn3 : no_references items3).
  { intros e o n g Hin Hu ->. destruct (Hent3' e _ Hin Hu) as (o0 & A & R & _). inversion R; subst; [contradiction|]. eapply Hn2; [exact A|exact Hu|reflexivity]. }
  assert (Hback3 : forall o0 o n g, redirected real (held items2) (held items3) o0 o -> mentions n g o -> (forall n0 g0, mentions n0 g0 o0 -> held items2 n0 g0 <> ONull) ->
    held items3 n g <> ONull /\ exists n0 g0, mentions n0 g0 o0 /\ (stg n g -> n0 = n /\ g0 = g)).
  { intros o0 o n g (_ & _ & R) Hmn Hne. destruct (R n g Hmn) as (n0 & g0 & A & Rk). assert (R1 := Rk 1%nat). assert (H0 := Hne n0 g0 A).
    assert (H3 : held items3 n g <> ONull).
    { intros E. apply H0. apply (resembles_null real (held items2) (held items3) (ORef n0 g0)). cbn [resembles seen_at] in *. rewrite E in R1. exact R1. }
    split; [exact H3|]. exists n0, g0. split; [exact A|]. intros Hs. apply held_not_null in H3. destruct H3 as (e & A3 & E1 & E2 & D). destruct (Hent3' e _ A3 D) as (o03 & A2 & (Rs & _)).
    destruct (Hsub2 e _ A2 D) as (G2 & G1). rewrite E1, E2 in *. destruct (Hstg_stream n g Hs) as (m0 & d & Ef).
    assert (Eo : exists m1, o03 = OStream m1 d).
    { rewrite <- G1. destruct (Hid_dec n g) as [E|E]; [destruct (Hself_id n g E) as (-> & ->); rewrite Hh1s; rewrite HfS in Ef; injection Ef as _ <-; eauto|rewrite (Hh1 n g E); eauto]. }
    destruct Eo as (m1 & ->). inversion Rs as [? F| | | |? l' ? F X Y]; subst; [destruct F|]. cbn [resembles seen_at] in R1. rewrite <- Y in R1.
    inversion R1 as [| | |? ? v0 _ T0|? ? _ N0 _| | |mm ? ? _ X]; subst; [discriminate T0|destruct N0|]. apply (Hown _ _ m1 d n0 g0 mm Hs G2). congruence. }
  assert (Hcl3 : forall n g m0 gm, mentions n g (held items3 m0 gm) -> held items3 n g <> ONull /\ (stg n g -> stg m0 gm)).
  { intros n g m0 gm H. destruct (held_cases items3 m0 gm) as [(e & A & E1 & E2 & D)|(E & _)]; [|rewrite E in H; inversion H].
    destruct (Hent3' e _ A D) as (o0 & A0 & R). destruct (Hsub2 e _ A0 D) as (G & _). rewrite E1, E2 in G.
    destruct (Hback3 o0 _ n g R H) as (H3 & n0 & g0 & A1 & Hs); [intros n0 g0 Hmn; apply (Hcl2 n0 g0 m0 gm); rewrite G; exact Hmn|].
    split; [exact H3|]. intros S. destruct (Hs S) as (-> & ->). apply (Hment1 n g m0 gm); [|exact S]. apply Hmen2. rewrite G. exact A1. }
  assert (Hkeep3 : forall e m0 d, In (e, OStream m0 d) items2 -> entry_in_use e = true -> stg (xnum e) (xgen e) ->
    exists m1, In (e, OStream m1 d) items3 /\ redirected real (held items2) (held items3) (OStream m0 d) (OStream m1 d)).
  { intros e m0 d Hin Hu Hs. destruct (Hsurv3 e _ Hin Hu) as (e' & o' & Hin' & Hu' & Rk). assert (R1 := Rk 1%nat). cbn [resembles] in R1.
    assert (Eo : seen_at (held items3) o' = o'). { destruct o'; try reflexivity. exfalso. eapply Hn3; [exact Hin'|exact Hu'|reflexivity]. }
    rewrite Eo in R1. cbn [seen_at] in R1. inversion R1 as [| | |? ? v0 T0 _|? ? N0 _ _| | |? mm ? _]; subst; [discriminate T0|destruct N0|]. clear R1 Eo.
    destruct (Hent3' e' _ Hin' Hu') as (o0 & A0 & R). assert (Rs := proj1 R). inversion Rs as [? F| | | |l0 ? ? F]; subst; [destruct F|].
    destruct (Hsub2 _ _ Hin Hu) as (G & _). destruct (Hsub2 _ _ A0 Hu') as (G' & _). destruct (Hown _ _ _ _ _ _ _ Hs G G') as (E1 & E2).
    assert (Ee : (e', OStream l0 d) = (e, OStream m0 d)) by (apply (distinct_same items2); [apply sorted_nodup; exact Hs2|exact A0|exact Hin|exact E1]).
    apply pair_equal_spec in Ee. destruct Ee as (-> & Ee). exists mm. split; [exact Hin'|]. rewrite <- Ee. exact R. }
  destruct (Hkeep3 eS T1 dS HS2 HuS) as (T3 & HS3 & HR3); [rewrite EnS, EgS; exact Hstg_self|].
  assert (HTapp3 : forall n g, mentions n g (OStream T3 dS) -> held items3 n g <> ONull /\ ~ stg n g).
  { intros n g H. destruct (Hback3 _ _ n g HR3 H) as (H3 & n0 & g0 & A1 & Hs).
    - intros n0 g0 Hmn. apply (Hcl2 n0 g0 (fst self) (snd self)). destruct (Hsub2 _ _ HS2 HuS) as (G & _). rewrite EnS, EgS in G. rewrite G. exact Hmn.
    - split; [exact H3|]. intros S. destruct (Hs S) as (-> & ->). apply (HTapp1 n g); [|exact S]. eapply mentions_dict_stream. exact A1. }
  (* free entries *)
  set (items4 := drop_freed items3) in *.
  assert (Hs4 : psorted items4) by (apply drop_freed_sorted; exact Hs3).
  assert (Hh4 : forall n g, held items4 n g = held items3 n g) by (intros n g; apply drop_freed_held).
  assert (Hin4 : incl items4 items3) by apply drop_freed_incl.
  assert (Hn4 : no_references items4) by (intros e o n g Hin; apply (Hn3 e o n g (Hin4 _ Hin))).
  assert (HS4 : In (eS, OStream T3 dS) items4) by (apply drop_freed_keeps; [exact HS3|exact HuS]).
  assert (Hcl4 : forall n g m0 gm, mentions n g (held items4 m0 gm) -> held items4 n g <> ONull /\ (stg n g -> stg m0 gm)).
  { intros n g m0 gm H. rewrite Hh4 in *. apply Hcl3. exact H. }
  assert (HTapp4 : forall n g, mentions n g (OStream T3 dS) -> held items4 n g <> ONull /\ ~ stg n g) by (intros n g H; rewrite Hh4; apply HTapp3; exact H).
  assert (Hcomp4 : forall e o k i, In (e, o) items4 -> xdata e = KComp k i -> xgen e = 0 /\ i < 2 ^ 63 /\ k <> fst self /\ stg k 0 /\
     (exists o0, writable o0 /\ reshaped o0 o) /\
     exists ek off mk mk4 dk, In (ek, OStream mk4 dk) items4 /\ xnum ek = k /\ xgen ek = 0 /\ xdata ek = KUsed off true /\ supported mk /\ direct_filters mk /\ reshaped (OStream mk dk) (OStream mk4 dk)).
  { intros e o k i Hin Ed. assert (Hu : entry_in_use e = true) by (unfold entry_in_use; rewrite Ed; reflexivity). destruct (Hent3' e o (Hin4 _ Hin) Hu) as (o0 & A0 & (Rs & _)).
    destruct (Hcomp2 e o0 k i A0 Ed) as (C1 & C2 & C3 & C4 & C5 & ek & off & mk & dk & K1 & K2 & K3 & K4 & K5 & K6). split; [exact C1|]. split; [exact C2|]. split; [exact C4|]. split; [exact C5|].
    split; [exists o0; auto|]. assert (Huk : entry_in_use ek = true) by (unfold entry_in_use; rewrite K4; reflexivity).
    destruct (Hkeep3 ek mk dk K1 Huk) as (mk4 & L1 & (L2 & _)); [rewrite K2, K3; exact C5|]. exists ek, off, mk, mk4, dk. split; [apply drop_freed_keeps; assumption|]. auto 10. }
  (* gaps *)
  apply Ok_inj in Hopt. rewrite (close_gaps_spec items4 [] Hs4) in Hopt. rewrite (gap_moves items4 Hs4) in Hopt. cbn [fst] in Hopt.
  assert (Emap : mapped (gap_map items4) (fst self) = rank items4 (fst self)) by (assert (G := gap_mapped items4 _ Hs4 HS4); cbn [fst] in G; rewrite EnS in G; exact G).
  rewrite Emap in Hopt. apply pair_equal_spec in Hopt. destruct Hopt as (<- & <-).
  set (self5 := (rank items4 (fst self), snd self)). set (items5 := map (gap_item items4) items4).
  assert (Hs5 : psorted items5) by (apply gaps_sorted; exact Hs4).
  set (T5 := map (fun e => (fst e, rename (gap_number items4) (snd e))) T3).
  assert (HS5 : In (gap_item items4 (eS, OStream T3 dS)) items5) by (apply in_map; exact HS4).
  assert (EgapS : gap_item items4 (eS, OStream T3 dS) = ({| xnum := fst self5; xgen := snd self5; xdata := KUsed offS true |}, OStream T5 dS)).
  { unfold gap_item, closed_up. cbn [fst snd rename]. rewrite EnS, EgS, HdS. reflexivity. }
  assert (Hdict : dictionary_of self5 items5 = T5).
  { unfold dictionary_of. destruct (find (fun p => at_id self5 (fst p)) items5) as [q|] eqn:Ef.
    - apply find_some in Ef. destruct Ef as (Hq & Ef). apply at_id_spec in Ef.
      assert (E : q = gap_item items4 (eS, OStream T3 dS)).
      { apply (distinct_same items5); [apply sorted_nodup; exact Hs5|exact Hq|exact HS5|]. rewrite EgapS. cbn [fst xnum]. rewrite <- Ef. reflexivity. }
      rewrite E, EgapS. reflexivity.
    - apply (find_none _ _ Ef) in HS5. rewrite EgapS in HS5. unfold at_id in HS5. cbn [fst xnum xgen] in HS5. rewrite !N.eqb_refl in HS5. discriminate HS5. }
  rewrite Hdict.
  assert (Hlen4 : (Z.of_nat (List.length items4) <= 2147483647)%Z).
  { assert (L4 := drop_freed_length items3). fold items4 in L4. assert (L3 : List.length items3 = List.length items2) by (apply (f_equal (@List.length N)) in Hnums3; rewrite !map_length in Hnums3; exact Hnums3).
    assert (L2 : (List.length items2 <= List.length items1)%nat).
    { apply NoDup_incl_length; [|exact Hin2]. apply (NoDup_map_inv (fun p : xentry * obj => xnum (fst p))). apply sorted_nodup. exact Hs2. }
    assert (L1 : List.length items1 = List.length (s_entries m)) by (unfold items1, with_content; rewrite !map_length; reflexivity).
    assert (L0 : List.length (flat_map section_items (rev c)) = List.length (flat_map s_entries c)).
    { assert (Ef : flat_map section_items c = flat_map s_entries c). { clear - Hp. induction Hp as [|s c Hs Hp IH]; [reflexivity|]. cbn [flat_map]. rewrite IH, (plain_items s Hs). reflexivity. }
      rewrite <- Ef. clear. induction c as [|s c IH]; [reflexivity|]. cbn [rev flat_map]. rewrite flat_map_app, !app_length. cbn [flat_map List.length]. rewrite IH, app_nil_r. lia. }
    lia. }
  assert (Hlen5 : List.length items5 = List.length items4) by apply map_length.
  assert (Hent4 : forall e o, In (e, o) items4 -> xgen e <= 65535 /\ match xdata e with KFree next => next = 0 | KUsed _ u => u = true | KComp _ _ => True end).
  { intros e o Hin. destruct (Hent3 e o (Hin4 _ Hin)) as [(o0 & Hin0 & _)|(n & ->)]; [|split; [cbn; lia|reflexivity]].
    destruct (own_cases _ _ _ _ _ _ (Hin2 _ Hin0)) as (He & _). destruct (Hent1 e He) as [->|((s & Hs & Hes) & Hu)]; [split; [cbn; lia|reflexivity]|].
    apply in_rev in Hs. assert (Hps := Hp). rewrite Forall_forall in Hps. rewrite (plain_items s (Hps s Hs)) in Hes. destruct (Hpure s Hs) as (_ & _ & Hall). destruct (Hall e Hes) as (G1 & G2). split; [exact G1|].
    unfold entry_in_use in Hu. destruct (xdata e); [discriminate Hu|exact G2|exact I]. }
  assert (Hsmall : forall o, (forall n g, mentions n g o -> held items4 n g <> ONull) -> small_references (rename (gap_number items4) o)).
  { intros o Ho n g Hmn. apply rename_mentions in Hmn. destruct Hmn as (n0 & Hmn & ->). assert (H0 := Ho n0 g Hmn). rewrite (held_new_number items4 n0 g Hs4 H0). assert (Hr := rank_le items4 n0).
    apply held_not_null in H0. destruct H0 as (e & A & E1 & E2 & D). destruct (Hent4 e _ A) as (G & _). change (2 ^ 63) with 9223372036854775808. clear - Hr G Hlen4 E2. split; lia. }
  assert (Hin5 : forall e o, In (e, o) items5 -> exists e4 o4, In (e4, o4) items4 /\ e = fst (closed_up items4 (e4, o4)) /\ o = rename (gap_number items4) o4).
  { intros e o Hin. apply in_map_iff in Hin. destruct Hin as ([e4 o4] & Eg & Hin). unfold gap_item in Eg. apply pair_equal_spec in Eg. destruct Eg as (<- & <-). exists e4, o4. auto. }
  assert (Huse5 : forall e4 o4, entry_in_use (fst (closed_up items4 (e4, o4))) = entry_in_use e4) by (intros e4 o4; unfold entry_in_use; cbn [closed_up fst xdata]; destruct (xdata e4); reflexivity).
  assert (Hn5 : no_references items5).
  { intros e o n g Hin Hu E. destruct (Hin5 e o Hin) as (e4 & o4 & A & -> & Eo). rewrite Huse5 in Hu. rewrite E in Eo. destruct o4; try discriminate Eo. eapply Hn4; [exact A|exact Hu|reflexivity]. }
  assert (Hhas : forall k p, In p items4 -> xnum (fst p) = k -> has_number items4 k = true) by (intros k p A E; apply existsb_exists; exists p; split; [exact A|lia]).
  assert (Hment4 : forall e o n g, In (e, o) items4 -> entry_in_use e = true -> mentions n g o -> held items4 n g <> ONull /\ (stg n g -> stg (xnum e) (xgen e))).
  { intros e o n g A Hu H. apply Hcl4. rewrite (held_holds items4 (xnum e) (xgen e) o Hs4); [exact H|]. exists e. auto. }
  set (bad := fun n g => exists e4 o4, In (e4, o4) items4 /\ n = rank items4 (xnum e4) /\ stg (xnum e4) g).
  assert (Hbad_rank : forall e o n0 g, In (e, o) items4 -> xnum e = n0 -> bad (rank items4 n0) g -> stg n0 g).
  { intros e o n0 g A E (e4 & o4 & A4 & Er & S). assert (G := rank_inj items4 (e, o) (e4, o4) A A4). cbn [fst] in G. rewrite E in G. rewrite (G Er). exact S. }
  assert (Hlink : forall key a, In (key, a) T1 -> key <> str "Length" -> exists b3, sm_find key T3 = Some b3 /\ forall k, resembles real (held items2) (held items3) k a b3).
  { assert (R3s := proj1 HR3). inversion R3s as [? F| | | |? ? ? F]; subst; [destruct F|]. intros key a Hin Hk. assert (Hb : all_bytes key) by (unfold sm_keys_ok in Tkeys; rewrite Forall_forall in Tkeys; apply (Tkeys (key, a) Hin)).
    assert (Ek := keys_same reshaped _ _ F). assert (Tw3 : sm_sorted T3 /\ sm_keys_ok T3) by (split; [eapply sm_sorted_map|eapply sm_keys_map]; [exact Ek|exact Tsort|exact Ek|exact Tkeys]).
    destruct Tw3 as (S3 & K3). assert (Hb3 : forall k, exists b, sm_find key T3 = Some b /\ resembles real (held items2) (held items3) k a b).
    { intros k. assert (A := proj1 (proj2 HR3) (S k)). cbn [resembles seen_at] in A. inversion A as [| | |? ? v0 T0 _|? ? N0 _ _| | |? ? ? (D1 & _)]; subst; [discriminate T0|destruct N0|].
      destruct (D1 key a Hin) as (b & Hb' & R); [intros [X|[]]; congruence|]. exists b. split; [apply sm_find_in; assumption|exact R]. }
    destruct (Hb3 O) as (b & Eb & _). exists b. split; [exact Eb|]. intros k. destruct (Hb3 k) as (b' & Eb' & R). rewrite Eb in Eb'. injection Eb' as <-. exact R. }
  assert (R3F : Forall2 (fun x y => fst x = fst y /\ reshaped (snd x) (snd y)) T1 T3) by (assert (R3s := proj1 HR3); inversion R3s as [? F| | | |? ? ? F]; subst; [destruct F|exact F]).
  assert (R5F : Forall2 (fun x y => fst x = fst y /\ reshaped (snd x) (snd y)) T1 T5).
  { assert (G : reshaped (ODict T1) (ODict T5)) by (eapply reshaped_trans; [apply rs_dict; exact R3F|apply (rename_reshaped (gap_number items4) (ODict T3))]). inversion G as [? F| | |? ? F|]; subst; [destruct F|exact F]. }
  assert (Hrefs5 : forall e o, In (e, o) items4 -> entry_in_use e = true -> small_references (rename (gap_number items4) o)).
  { intros e o A Hu. apply Hsmall. intros n g H. apply (Hment4 e o n g A Hu H). }
  assert (Hpacked : packed_as_before c self f (s_trailer newest) items5).
  { assert (Hexact := unreferenced_exact order (fst self) items1 T1 items2 Hs1 Hord Hun).
    assert (Hstep : forall m0 gm n g, held items1 m0 gm <> ONull -> reachable [stream_of (fst self) items1 T1] m0 -> mentions n g (held items1 m0 gm) -> reachable [stream_of (fst self) items1 T1] n).
    { intros m0 gm n g H0 Hr Hmn. apply (r_step _ m0 gm (held items1 m0 gm) n g (held items1 n g)); [exact Hr|apply stream_holds, held_not_null, H0|exact Hmn|].
      apply stream_holds, held_not_null. apply (Hcl1 n g m0 gm Hmn). }
    assert (Hrself : reachable [stream_of (fst self) items1 T1] (fst self)) by (apply (r_self _ (stream_of (fst self) items1 T1)); [left; reflexivity|reflexivity|reflexivity]).
    assert (Hshown : forall v, (forall n g, mentions n g v -> mentions n g (ODict T1) /\ mentions n g (ODict (s_trailer newest))) -> forall n g, live f v n g ->
              ~ stg n g /\ f n g <> ONull /\ reachable [stream_of (fst self) items1 T1] n).
    { intros v Hv n g L. induction L as [n g Hm0|m0 gm n g L IH Hm0].
      - destruct (Hv n g Hm0) as (H1 & H2). split; [apply HTapp1; exact H1|]. split; [apply Hloose; left; exact H2|].
        apply (Hstep (fst self) (snd self) n g); [rewrite Hh1s; discriminate|exact Hrself|rewrite Hh1s; apply mentions_dict_stream; exact H1].
      - destruct IH as (I1 & I2 & I3). split; [intros S; apply I1; apply (cp_apart _ _ _ _ _ _ Hcp n g S); exact Hm0|]. split; [apply Hloose; right; eauto|].
        assert (E0 : held items1 m0 gm = f m0 gm) by (apply Hh1; intros E; apply I1; destruct (Hself_id _ _ E) as (-> & ->); exact Hstg_self).
        apply (Hstep m0 gm n g); [rewrite E0; exact I2|exact I3|rewrite E0; exact Hm0]. }
    assert (Hneeded : forall n, reachable [stream_of (fst self) items1 T1] n -> forall e o, In (e, o) items1 -> xnum e = n -> entry_in_use e = true ->
              stg n (xgen e) \/ needed c self f (s_trailer newest) n (xgen e)).
    { intros n Hr. induction Hr as [s0 n g ob Hs Hk _ _|s0 n Hs _ Hsf|s0 ex ox n ix Hs _ Hix Edx|m0 gm ob n g o' Hr IH Ho Hmn Ho']; intros e o Hin En Hu.
      - destruct Hs as [<-|[]]. discriminate Hk.
      - destruct Hs as [<-|[]]. cbn [stream_of u_self] in Hsf. assert (E : n = fst self) by congruence. left. left. rewrite E.
        assert (Ae := proj1 (own_cases _ _ _ _ _ _ Hin)). assert (e = eS).
        { apply (nums_same (s_entries m)); [|exact Ae|exact HinS|congruence]. apply sorted_nodup. assert (G := with_content_sorted (fun _ => ONull) _ Hxs1). unfold psorted, with_content in G. rewrite map_map in G. exact G. }
        subst e. replace (xgen eS) with (snd self) by congruence. destruct self; reflexivity.
      - destruct Hs as [<-|[]]. cbn [stream_of u_items] in Hix. assert (Hux : entry_in_use ex = true) by (unfold entry_in_use; rewrite Edx; reflexivity). destruct (Hid1 ex ox Hix Hux) as (Hex & _).
        assert (Hrx : resolve_entry (xnum ex) (xgen ex) c = Some ex) by (apply Hres; auto). destruct (cp_streams _ _ _ _ _ _ Hcp _ _ _ _ _ Hrx Edx) as (_ & _ & e' & off & m' & d' & He' & Ed' & _).
        left. right. split; [|exists (xnum ex), (xgen ex), ex, ix; auto]. apply Hres in He'. destruct He' as (He1 & He2 & He3 & He4). assert (Ae := proj1 (own_cases _ _ _ _ _ _ Hin)).
        assert (e = e'); [|congruence]. apply (nums_same (s_entries m)); [|exact Ae|exact He1|congruence]. apply sorted_nodup. assert (G := with_content_sorted (fun _ => ONull) _ Hxs1). unfold psorted, with_content in G. rewrite map_map in G. exact G.
      - apply stream_holds in Ho, Ho'. destruct Ho' as (e' & Q1 & Q2 & Q3 & Q4). assert (Ee : (e', o') = (e, o)) by (apply (distinct_same items1); [apply sorted_nodup; exact Hs1|exact Q1|exact Hin|cbn [fst]; congruence]).
        apply pair_equal_spec in Ee. destruct Ee as (-> & _). rewrite Q3. right. assert (Eh := held_holds items1 m0 gm ob Hs1 Ho). destruct Ho as (em & P1 & P2 & P3 & P4).
        destruct (IH em ob P1 P2 P4) as [HS|HN]; rewrite P3 in *.
        + rewrite <- Eh in Hmn. destruct (Hid_dec m0 gm) as [E|E].
          * destruct (Hself_id m0 gm E) as (-> & ->). rewrite Hh1s in Hmn. apply mentions_dict_stream in Hmn. destruct (Tment n g Hmn) as [H'|H']; [left; apply live_trailer; exact H'|right].
            exists (fst self), (snd self). split; [exact HS|]. apply live_trailer. rewrite HfS. apply mentions_dict_stream. exact H'.
          * rewrite (Hh1 m0 gm E) in Hmn. right. exists m0, gm. split; [exact HS|apply live_trailer; exact Hmn].
        + rewrite <- Eh in Hmn. destruct (Hid_dec m0 gm) as [E|E].
          * destruct (Hself_id m0 gm E) as (-> & ->). rewrite Hh1s in Hmn. apply mentions_dict_stream in Hmn. destruct (Tment n g Hmn) as [H'|H']; [left; apply live_trailer; exact H'|right].
            exists (fst self), (snd self). split; [exact Hstg_self|]. apply live_trailer. rewrite HfS. apply mentions_dict_stream. exact H'.
          * rewrite (Hh1 m0 gm E) in Hmn. destruct HN as [HN|(ms & gs & S1 & S2)]; [left; apply (live_step _ _ m0 gm); assumption|right; exists ms, gs; split; [exact S1|apply (live_step _ _ m0 gm); assumption]]. }
    exists (rank items4), (fun n => has_number items4 n = true). split; [|split].
    - intros a b Ha Hb E. apply existsb_exists in Ha, Hb. destruct Ha as (p & Hp1 & Ep), Hb as (q & Hq1 & Eq). apply N.eqb_eq in Ep, Eq. rewrite <- Ep, <- Eq in *. apply (rank_inj items4 p q Hp1 Hq1 E).
    - intros e o k5 i Hin Ed. destruct (Hin5 e o Hin) as (e4 & o4 & A & -> & _). cbn [closed_up fst xnum xdata] in Ed |- *. destruct (xdata e4) as [|off u|k i4] eqn:Ed4; [discriminate Ed..|].
      destruct (Hcomp4 e4 o4 k i4 A Ed4) as (C1 & _ & _ & _ & _ & ek & offk & mk & mk4 & dk & K1 & K2 & _). rewrite (Hhas k _ K1 K2) in Ed.
      assert (Ei := f_equal (fun z => match z with KComp _ x => x | _ => 0 end) Ed). assert (Ek := f_equal (fun z => match z with KComp x _ => x | _ => 0 end) Ed). cbv beta iota in Ei, Ek. subst i4 k5.
      assert (Hu : entry_in_use e4 = true) by (unfold entry_in_use; rewrite Ed4; reflexivity). destruct (Hent3' e4 o4 (Hin4 _ A) Hu) as (o0 & A0 & _).
      assert (Ae := proj1 (own_cases _ _ _ _ _ _ (Hin2 _ A0))).
      exists (xnum e4), k. split; [exists e4; split; [apply Hres; auto|exact Ed4]|]. split; [apply (Hhas (xnum e4) (e4, o4) A eq_refl)|]. split; [apply (Hhas k _ K1 K2)|]. split; [reflexivity|]. split; [reflexivity|].
      destruct (proj1 (Hexact _) A0) as (A1 & [(next & X)|Hr]); [cbn [fst] in X; congruence|]. cbn [fst] in Hr.
      assert (Hre : resolve_entry (xnum e4) 0 c = Some e4) by (apply Hres; auto).
      destruct (Hneeded _ Hr e4 o0 A1 eq_refl Hu) as [[X|(_ & mo & go & eo & io & Ho & Eo)]|X]; [exfalso..|rewrite C1 in X; exact X].
      + assert (e4 = eS); [|congruence]. apply (nums_same (s_entries m)); [|exact Ae|exact HinS|apply (f_equal fst) in X; cbn [fst] in X; congruence].
        apply sorted_nodup. assert (G := with_content_sorted (fun _ => ONull) _ Hxs1). unfold psorted, with_content in G. rewrite map_map in G. exact G.
      + destruct (cp_streams _ _ _ _ _ _ Hcp _ _ _ _ _ Ho Eo) as (_ & _ & e' & off & m' & d' & He' & Ed' & _). congruence.
    - intros n k i (e & Hr & Ed) (key & v & Hkey & Hv & L). assert (Hr' := proj1 (Hres _ _ _) Hr). destruct Hr' as (A1 & A2 & A3 & A4).
      assert (Hb : all_bytes key) by (destruct Hkey as [<-|[<-|[<-|[]]]]; apply str_bytes).
      assert (Hin1 : In (e, content e) items1). { apply Hout1; [exact A1|]. intros E. apply (HnumE e A1) in E. congruence. }
      destruct (Hshown v) with (n := n) (g := 0) as (_ & _ & Hreach); [|exact L|].
      { intros n0 g0 Hmn. assert (Ht : In (key, v) (s_trailer newest)) by (apply sm_find_in; assumption). split; [|eapply Spec.Unreferenced.m_dict; eassumption].
        apply (Spec.Unreferenced.m_dict n0 g0 T1 key v); [|exact Hmn]. apply sm_find_in; [exact Tsort|exact Tkeys|exact Hb|]. rewrite Tfind by exact Hb.
        assert (Hk4 : In key trailer_keys) by (destruct Hkey as [<-|[<-|[<-|[]]]]; vm_compute; tauto). assert (Hk2 : key <> str "Prev" /\ key <> str "Size") by (destruct Hkey as [<-|[<-|[<-|[]]]]; split; discriminate).
        destruct (list_eq_dec _ _ _); [exfalso; apply (proj1 Hk2); assumption|]. assert (Hnm := cp_names _ _ _ _ _ _ Hcp key Hkey). fold B in Hnm. destruct (sm_find key B) as [x|]; [destruct Hnm as [X|X]; [discriminate X|congruence]|].
        destruct (list_eq_dec _ _ _); [exfalso; apply (proj2 Hk2); assumption|]. destruct (in_dec _ _ _); [exact Hv|contradiction]. }
      assert (Hi2 : In (e, content e) items2) by (apply Hexact; split; [exact Hin1|right; cbn [fst]; rewrite A3; exact Hreach]).
      destruct (compressed_kept real hash arrange items2 [] items3 T3' Harr Hs2 Hmg e _ k i Hi2 Ed) as (o3 & Hi3).
      assert (Hi4 : In (e, o3) items4) by (apply drop_freed_keeps; [exact Hi3|exact A2]).
      destruct (Hcomp4 e o3 k i Hi4 Ed) as (_ & _ & _ & _ & _ & ek & offk & mk & mk4 & dk & K1 & K2 & _).
      split; [apply (Hhas n _ Hi4); exact A3|]. split; [apply (Hhas k _ K1 K2)|].
      exists (fst (closed_up items4 (e, o3))), (rename (gap_number items4) o3). split; [apply (in_map (gap_item items4)) in Hi4; exact Hi4|].
      cbn [closed_up fst xnum xdata]. rewrite Ed, A3, (Hhas k _ K1 K2). split; reflexivity. }
  split; [|exact Hpacked].
  split; [|split; [exact Hn5|]].
  - intros Htext. constructor.
    + exact Hs5.
    + unfold items5. destruct items4 as [|p l] eqn:E4; [destruct HS4|]. eexists _, _. split; [reflexivity|]. cbn [gap_item fst closed_up xnum]. apply rank_first. exact Hs4.
    + rewrite Hlen5. exact Hlen4.
    + intros e o Hin. destruct (Hin5 e o Hin) as (e4 & o4 & A & -> & ->). destruct (Hent4 e4 o4 A) as (G1 & G2). assert (Hr := rank_le items4 (xnum e4)).
      unfold entry_ok. cbn [closed_up fst xnum xgen xdata]. split; [change (2 ^ 63) with 9223372036854775808; clear - Hr Hlen4; lia|]. split; [exact G1|].
      destruct (xdata e4) as [next|off u|k i] eqn:Ed.
      * subst next. reflexivity.
      * assert (Hu : entry_in_use e4 = true) by (unfold entry_in_use; rewrite Ed; exact G2). destruct (Hent3' e4 o4 (Hin4 _ A) Hu) as (o0 & A0 & (Rs & _)).
        split; [exact G2|]. split.
        -- apply (reshaped_storable o0); [eapply reshaped_trans; [exact Rs|apply rename_reshaped]|apply (Hst1 e4 o0 (Hin2 _ A0) Hu)|apply (Hrefs5 e4 o4 A Hu)].
        -- intros E. unfold self5 in E. apply pair_equal_spec in E. destruct E as (E1 & E2). assert (En := rank_inj items4 (e4, o4) (eS, OStream T3 dS) A HS4). cbn [fst] in En. rewrite EnS in En.
           assert (Ee : (e4, o4) = (eS, OStream T3 dS)) by (apply (distinct_same items4); [apply sorted_nodup; exact Hs4|exact A|exact HS4|cbn [fst]; rewrite EnS; apply En; exact E1]).
           apply pair_equal_spec in Ee. destruct Ee as (-> & _). rewrite HdS in Ed. injection Ed as <- _. exact HoffS.
      * assert (Hu : entry_in_use e4 = true) by (unfold entry_in_use; rewrite Ed; reflexivity).
        destruct (Hcomp4 e4 o4 k i A Ed) as (C1 & C2 & C3 & C4 & (o0 & C5 & C6) & ek & offk & mk & mk4 & dk & K1 & K2 & K3 & K4 & K5 & K6 & K7).
        rewrite (Hhas k _ K1 K2). split; [exact C1|]. split; [exact C2|]. split; [|split].
        -- apply (reshaped_writable o0); [eapply reshaped_trans; [exact C6|apply rename_reshaped]|exact C5|apply (Hrefs5 e4 o4 A Hu)].
        -- unfold self5. cbn [fst]. intros E. apply C3. assert (En := rank_inj items4 _ _ K1 HS4). cbn [fst] in En. rewrite EnS, K2 in En. apply En. exact E.
        -- set (mk5 := map (fun e => (fst e, rename (gap_number items4) (snd e))) mk4). exists mk5, dk. split.
           ++ exists offk. apply (in_map (gap_item items4)) in K1. unfold gap_item, closed_up in K1. cbn [fst snd rename] in K1. rewrite K2, K3, K4 in K1. exact K1.
           ++ assert (G : reshaped (OStream mk dk) (OStream mk5 dk)) by (eapply reshaped_trans; [exact K7|apply (rename_reshaped (gap_number items4) (OStream mk4 dk))]).
              inversion G as [? F| | | |? ? ? F]; subst; [destruct F|]. apply (Hcd mk); [|exact K5].
              split; [assert (Q := reshaped_find _ _ (str "Filter") F)|assert (Q := reshaped_find _ _ (str "DecodeParms") F)].
              ** assert (D := K6 (str "Filter")). destruct (sm_find (str "Filter") mk) as [a|], (sm_find (str "Filter") mk5) as [b|]; try contradiction; try reflexivity. f_equal. apply reshaped_same; [exact Q|]. apply (D a); [left; reflexivity|reflexivity].
              ** assert (D := K6 (str "DecodeParms")). destruct (sm_find (str "DecodeParms") mk) as [a|], (sm_find (str "DecodeParms") mk5) as [b|]; try contradiction; try reflexivity. f_equal. apply reshaped_same; [exact Q|]. apply (D a); [right; left; reflexivity|reflexivity].
    + exists (OStream T5 dS), offS. rewrite EgapS in HS5. exact HS5.
    + apply (reshaped_storable (OStream T1 [])); [apply rs_stream; exact R5F|exact TwE|]. intros n g Hmn. assert (Q := Hrefs5 _ _ HS4 HuS n g). apply Q. cbn [rename]. apply (mentions_dict_stream n g T5 dS). apply (mentions_dict_stream n g T5 []). exact Hmn.
    + assert (Q := reshaped_find _ _ (str "Prev") R5F). rewrite Tfind in Q by apply str_bytes. destruct (list_eq_dec _ (str "Prev") (str "Prev")); [|congruence]. destruct (sm_find (str "Prev") T5); [destruct Q|reflexivity].
    + destruct (cp_filter _ _ _ _ _ _ Hcp) as (mf & F1 & F2 & F3). apply (Hcd mf); [|exact F1].
      assert (Ek := keys_same reshaped _ _ R5F). assert (S5 := sm_sorted_map _ _ Ek Tsort). assert (K5 := sm_keys_map _ _ Ek Tkeys).
      split; rewrite sm_find_remove by first [assumption|apply str_bytes].
      * destruct (list_eq_dec _ (str "Filter") (str "DecodeParms")) as [X|_]; [discriminate X|]. rewrite F2.
        assert (Q := reshaped_find _ _ (str "Filter") R5F). assert (Ef : sm_find (str "Filter") T1 = Spec.SaveStream.merged_entry base newest (str "Filter")).
        { rewrite Tfind by apply str_bytes. unfold Spec.SaveStream.merged_entry. fold B. destruct (list_eq_dec _ _ _) as [X|_]; [discriminate X|]. destruct (sm_find (str "Filter") B); [reflexivity|].
          destruct (list_eq_dec _ _ _) as [X|_]; [discriminate X|]. destruct (in_dec _ _ _) as [_|X]; [reflexivity|]. exfalso. apply X. vm_compute. tauto. }
        rewrite Ef in Q. assert (D := cp_direct _ _ _ _ _ _ Hcp). destruct (Spec.SaveStream.merged_entry base newest (str "Filter")) as [a|], (sm_find (str "Filter") T5) as [b|]; try contradiction; try reflexivity. f_equal. apply reshaped_same; [exact Q|]. intros n g. apply (D a n g eq_refl).
      * destruct (list_eq_dec _ (str "DecodeParms") (str "DecodeParms")); [symmetry; exact F3|congruence].
    + exact Htext.
  - exists bad. split; [|split; [|split; [|split]]].
    + exists eS, (OStream T3 dS). split; [exact HS4|]. unfold self5. cbn [fst snd]. rewrite EnS. split; [reflexivity|exact Hstg_self].
    + intros e o Hin (ec & oc & i & Hc & Ed). destruct (Hin5 ec oc Hc) as (ec4 & oc4 & Ac & -> & _). cbn [closed_up fst xdata] in Ed. destruct (xdata ec4) as [|off u|k i4] eqn:Edc; [discriminate Ed..|].
      destruct (Hcomp4 ec4 oc4 k i4 Ac Edc) as (_ & _ & _ & C4 & _ & ek & offk & mk & mk4 & dk & K1 & K2 & K3 & K4 & _). rewrite (Hhas k _ K1 K2) in Ed. injection Ed as Ed _.
      destruct (Hin5 e o Hin) as (e4 & o4 & A & -> & _). cbn [closed_up fst xnum xgen] in *. assert (En := rank_inj items4 _ _ K1 A). cbn [fst] in En. rewrite K2 in En. specialize (En Ed).
      assert (Ee : (ek, OStream mk4 dk) = (e4, o4)) by (apply (distinct_same items4); [apply sorted_nodup; exact Hs4|exact K1|exact A|cbn [fst]; congruence]). apply pair_equal_spec in Ee. destruct Ee as (<- & _).
      rewrite K3. exists ek, (OStream mk4 dk). split; [exact K1|]. split; [reflexivity|]. rewrite K2. exact C4.
    + intros m0 gm n g Hb Hmn Hbn. destruct (held_cases items5 m0 gm) as [(e & A & E1 & E2 & D)|(E & _)]; [|rewrite E in Hmn; inversion Hmn].
      destruct (Hin5 e _ A) as (e4 & o4 & A4 & -> & Eo). rewrite Huse5 in D. rewrite Eo in Hmn. apply rename_mentions in Hmn. destruct Hmn as (n0 & Hmn & En). destruct (Hment4 e4 o4 n0 g A4 D Hmn) as (H0 & Hs0).
      rewrite (held_new_number items4 n0 g Hs4 H0) in En. apply held_not_null in H0. destruct H0 as (e0 & A0 & X1 & X2 & _). subst n. apply Hb. cbn [closed_up fst xnum xgen] in E1, E2. exists e4, o4. split; [exact A4|]. split; [congruence|].
      rewrite <- E2. apply Hs0. apply (Hbad_rank e0 _ n0 g A0 X1 Hbn).
    + intros n g Hmn Hbn. apply (rename_mentions (gap_number items4) n g (ODict T3)) in Hmn. destruct Hmn as (n0 & Hmn & En). apply (mentions_dict_stream _ _ _ dS) in Hmn. destruct (HTapp4 n0 g Hmn) as (H0 & Hs0).
      rewrite (held_new_number items4 n0 g Hs4 H0) in En. apply held_not_null in H0. destruct H0 as (e0 & A0 & X1 & X2 & _). subst n. apply Hs0. apply (Hbad_rank e0 _ n0 g A0 X1 Hbn).
    + intros key Hkey. assert (Hb : all_bytes key) by (destruct Hkey as [<-|[<-|[<-|[]]]]; apply str_bytes).
      assert (Hk1 : key <> str "Size" /\ key <> str "Prev" /\ key <> str "Length" /\ In key trailer_keys).
      { destruct Hkey as [<-|[<-|[<-|[]]]]; (split; [discriminate|]); (split; [discriminate|]); (split; [discriminate|]); vm_compute; tauto. }
      destruct Hk1 as (Hk1 & Hk2 & Hk3 & Hk4).
      assert (E1 : sm_find key T1 = sm_find key (s_trailer newest)).
      { rewrite Tfind by exact Hb. destruct (list_eq_dec _ _ _); [contradiction|]. assert (Hnm := cp_names _ _ _ _ _ _ Hcp key Hkey). fold B in Hnm. destruct (sm_find key B) as [x|]; [destruct Hnm as [X|X]; [discriminate X|exact X]|].
        destruct (list_eq_dec _ _ _); [contradiction|]. destruct (in_dec _ _ _); [reflexivity|contradiction]. }
      assert (E5 : sm_find key T5 = option_map (rename (gap_number items4)) (sm_find key T3)) by apply sm_find_values.
      rewrite <- E1, E5. assert (Q := reshaped_find _ _ key R3F). destruct (sm_find key T1) as [a|] eqn:Ea.
      2: { destruct (sm_find key T3); [destruct Q|exact I]. }
      apply sm_find_in in Ea; [|assumption..]. destruct (Hlink key a Ea Hk3) as (b3 & Eb & R3). rewrite Eb. cbn [option_map]. clear Q.
      assert (HaT : forall n g, mentions n g a -> mentions n g (ODict T1)) by (intros n g H; eapply Spec.Unreferenced.m_dict; eassumption).
      assert (HS2h : held items2 (fst self) (snd self) = OStream T1 dS) by (destruct (Hsub2 _ _ HS2 HuS) as (G & _); rewrite EnS, EgS in G; exact G).
      assert (Hb3T : forall n g, mentions n g b3 -> held items4 n g <> ONull).
      { assert (Tw3 : sm_sorted T3 /\ sm_keys_ok T3) by (assert (Ek := keys_same reshaped _ _ R3F); split; [eapply sm_sorted_map|eapply sm_keys_map]; [exact Ek|exact Tsort|exact Ek|exact Tkeys]).
        apply sm_find_in in Eb; [|apply Tw3|apply Tw3|exact Hb]. intros n g H. apply (HTapp4 n g). eapply Spec.Unreferenced.m_stream; eassumption. }
      intros k. apply resembles_trans with (f' := held items1) (b := a).
      { apply (same_store_apart real f (held items1) (fun n g => ~ stg n g)).
        - intros n g n' g' Hs. rewrite Hh1; [apply Hst|]. intros E. apply Hs. destruct (Hself_id n g E) as (-> & ->). exact Hstg_self.
        - intros n g Hs. symmetry. apply Hh1. intros E. apply Hs. destruct (Hself_id n g E) as (-> & ->). exact Hstg_self.
        - intros m0 gm n g Hs Hmn Hs'. apply Hs. apply (Hment1 n g m0 gm Hmn). exact Hs'.
        - intros n g Hmn. apply HTapp1, HaT, Hmn. }
      apply resembles_trans with (f' := held items2) (b := a).
      { apply (same_store_apart real (held items1) (held items2) (fun n g => held items1 n g = held items2 n g)).
        - intros n g n' g' _. apply held_no_reference. exact Hn2.
        - auto.
        - intros m0 gm n g _ Hmn. symmetry. apply (Hh2 n g m0 gm Hmn). apply (Hcl1 n g m0 gm). apply Hmen2. exact Hmn.
        - intros n g Hmn. symmetry. assert (G : mentions n g (held items2 (fst self) (snd self))) by (rewrite HS2h; apply mentions_dict_stream, HaT, Hmn). apply (Hh2 n g _ _ G). apply (Hcl1 n g _ _ (Hmen2 _ _ _ _ G)). }
      apply resembles_trans with (f' := held items3) (b := b3); [apply R3|].
      apply resembles_trans with (f' := held items4) (b := b3).
      { apply same_store; [apply held_no_reference; exact Hn4|intros; symmetry; apply Hh4|intros; symmetry; apply Hh4]. }
      apply (stage_gaps real items4 ONull Hs4 Hn4); [|exact Hb3T]. intros n g [Hmn|(m0 & gm & Hmn)]; [inversion Hmn|]. apply (Hcl4 n g m0 gm Hmn).
Qed.
Lemma optimized_stream : forall real hash content order arrange supported self base newest older items5 self5,
  let c := newest :: older in let f := document_objects content c in
  any_order order -> any_arrangement arrange ->
  pure_sections c -> oldest_stream c base -> nothing_deleted c ->
  (Z.of_nat (S (List.length (flat_map s_entries c))) <= 2147483647)%Z ->
  stores_objects f -> no_loose_reference f (ODict (s_trailer newest)) -> hashes_steady real hash f ->
  compressed_document supported content c self base newest ->
  (forall m m', same_filters m m' -> supported m -> supported m') ->
  optimize_stream real hash content order arrange self c = Ok (items5, self5) ->
  (text_fits items5 -> document supported self5 (dictionary_of self5 items5) items5) /\ no_references items5 /\
  exists bad : N -> N -> Prop, bad (fst self5) (snd self5) /\ (forall e o, In (e, o) items5 -> is_object_stream items5 (xnum e) -> bad (xnum e) (xgen e)) /\
    (forall m gm n g, ~ bad m gm -> mentions n g (held items5 m gm) -> ~ bad n g) /\
    (forall n g, mentions n g (ODict (dictionary_of self5 items5)) -> ~ bad n g) /\
    forall key, In key [str "Root"; str "Info"; str "ID"] ->
      match sm_find key (s_trailer newest), sm_find key (dictionary_of self5 items5) with
      | Some a, Some b => same_document real f (held items5) a b
      | None, None => True
      | _, _ => False
      end.
Proof.
  intros real hash content order arrange supported self base newest older items5 self5 c f Hord Harr Hpure Hold Hnd Hcount Hst Hloose Hsteady Hcp Hcd Hopt.
  exact (proj1 (optimized_packed real hash content order arrange supported self base newest older items5 self5 Hord Harr Hpure Hold Hnd Hcount Hst Hloose Hsteady Hcp Hcd Hopt)).
Qed.

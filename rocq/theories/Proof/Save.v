(** A full save keeps the document: the stages one after the other. *)
From Coq Require Import List NArith ZArith Bool Lia String Sorted Permutation Relations.
From Verif.Model Require Import Base SMap Object Equality Token Parser Xref Header FileWrite Chain Merge Unreferenced Duplicates Save.
From Verif.Spec Require Import Strings Grammar Xref FileWrite Chain Merge Unreferenced Duplicates Save.
From Verif.Proof Require Import Tac SMap Xref Containers StreamObj FileWrite Parser ParserAny Writer Equality Duplicates Unreferenced Merge.
From Verif.Props Require Unreferenced FileWrite.
Import ListNotations.
Local Open Scope N_scope.

(** *** Looking the same *)
Section Resembles.
Variable real : bool -> N -> N -> dbl.
Notation agree := (agree real).
Notation resembles := (resembles real).

Lemma entries_agree_mono : forall skip (R S : obj -> obj -> Prop) m m', (forall a b, R a b -> S a b) -> entries_agree skip R m m' -> entries_agree skip S m m'.
Proof.
  intros skip R S m m' H (A & B). split.
  - intros k v Hin Hs. destruct (A k v Hin Hs) as (v' & ? & ?). eauto.
  - intros k v Hin Hs. destruct (B k v Hin Hs) as (v' & ? & ?). eauto.
Qed.
Lemma entries_agree_trans : forall skip (R S T : obj -> obj -> Prop) m m' m'', (forall a b c, R a b -> S b c -> T a c) ->
  entries_agree skip R m m' -> entries_agree skip S m' m'' -> entries_agree skip T m m''.
Proof.
  intros skip R S T m m' m'' H (A & B) (C & D). split.
  - intros k v Hin Hs. destruct (A k v Hin Hs) as (v' & Hin' & H1). destruct (C k v' Hin' Hs) as (v'' & Hin'' & H2). eauto.
  - intros k v Hin Hs. destruct (D k v Hin Hs) as (v' & Hin' & H1). destruct (B k v' Hin' Hs) as (v'' & Hin'' & H2). eauto.
Qed.
Lemma agree_mono : forall (R S : obj -> obj -> Prop), (forall a b, R a b -> S a b) -> forall a b, agree R a b -> agree S a b.
Proof.
  intros R S H a b Hab. destruct Hab; try (constructor; fail).
  - eapply ag_text; eassumption.
  - apply ag_number; assumption.
  - apply ag_arr. eapply Forall2_weaken'; eassumption.
  - apply ag_dict. eapply entries_agree_mono; eassumption.
  - apply ag_stream. eapply entries_agree_mono; eassumption.
Qed.
Lemma agree_trans : forall (R S T : obj -> obj -> Prop), (forall a b c, R a b -> S b c -> T a c) ->
  forall a b c, agree R a b -> agree S b c -> agree T a c.
Proof.
  intros R S T H a b c H1 H2. destruct H1 as [|x|n|a b v Ha Hb|a b Ha Hb Hab|l l' Hl|m m' Hm|m m' d Hm].
  - inversion H2 as [|?|?|? ? v A B|? ? A B C|? ? A|? ? A|? ? ? A]; subst; try discriminate; try contradiction. constructor.
  - inversion H2 as [|?|?|? ? v A B|? ? A B C|? ? A|? ? A|? ? ? A]; subst; try discriminate; try contradiction. constructor.
  - inversion H2 as [|?|?|? ? v A B|? ? A B C|? ? A|? ? A|? ? ? A]; subst; try discriminate; try contradiction. constructor.
  - inversion H2 as [|?|?|? ? w A B|? ? A B C|? ? A|? ? A|? ? ? A]; subst; try discriminate.
    + eapply ag_text; [exact Ha|]. congruence.
    + destruct b; try discriminate; contradiction.
  - inversion H2 as [|?|?|? ? w A B|? ? A B C|? ? A|? ? A|? ? ? A]; subst; try contradiction.
    + destruct b; try discriminate; contradiction.
    + apply ag_number; [assumption..|]. eapply rst_trans; eassumption.
  - inversion H2 as [|?|?|? ? v A B|? ? A B C|? ? A|? ? A|? ? ? A]; subst; try discriminate; try contradiction. apply ag_arr. eapply Forall2_comp; eassumption.
  - inversion H2 as [|?|?|? ? v A B|? ? A B C|? ? A|? ? A|? ? ? A]; subst; try discriminate; try contradiction. apply ag_dict. eapply entries_agree_trans; eassumption.
  - inversion H2 as [|?|?|? ? v A B|? ? A B C|? ? A|? ? A|? ? ? A]; subst; try discriminate; try contradiction. apply ag_stream. eapply entries_agree_trans; eassumption.
Qed.
Lemma resembles_trans : forall f f' f'' k a b c, resembles f f' k a b -> resembles f' f'' k b c -> resembles f f'' k a c.
Proof. intros f f' f''. induction k as [|k IH]; intros a b c; cbn [Spec.Save.resembles]; [auto|]. apply agree_trans. exact IH. Qed.

(** a relation that looks the same at the top and is kept by the elements *)
Lemma bisimulation : forall (f f' : store) (R : obj -> obj -> Prop), (forall a b, R a b -> agree R (seen_at f a) (seen_at f' b)) ->
  forall k a b, R a b -> resembles f f' k a b.
Proof.
  intros f f' R H. induction k as [|k IH]; intros a b Hab; cbn [Spec.Save.resembles]; [exact I|].
  eapply agree_mono; [exact IH|]. apply H. exact Hab.
Qed.
(** an object related to itself, element by element *)
Lemma agree_self : forall (R : obj -> obj -> Prop) o, (forall n g, o <> ORef n g) ->
  (match o with OArr l => Forall (fun x => R x x) l | ODict m | OStream m _ => Forall (fun e => R (snd e) (snd e)) m | _ => True end) -> agree R o o.
Proof.
  assert (E : forall skip (R : obj -> obj -> Prop) m, Forall (fun e : bytes * obj => R (snd e) (snd e)) m -> entries_agree skip R m m).
  { intros skip R m H. rewrite Forall_forall in H. split; intros k v Hin _; exists v; (split; [exact Hin|apply (H _ Hin)]). }
  intros R o Hn H. destruct o as [|b|z|neg m p|nm|v|v|n g|l|m|m d]; try (constructor; fail).
  - apply ag_number; [exact I..|apply rst_refl].
  - apply ag_number; [exact I..|apply rst_refl].
  - eapply ag_text; reflexivity.
  - eapply ag_text; reflexivity.
  - exfalso. eapply Hn. reflexivity.
  - apply ag_arr. apply Forall2_refl_in. exact H.
  - apply ag_dict. apply E. exact H.
  - apply ag_stream. apply E. exact H.
Qed.

(** *** The values of objects *)
Notation value_of := (value_of real).
Lemma value_target : forall F (f : store), (forall n g, find_indirect F n g = value_of (f n g)) -> forall o, target F (value_of o) = value_of (seen_at f o).
Proof. intros F f H o. destruct o; try reflexivity. cbn [Model.Save.value_of target seen_at]. apply H. Qed.
Lemma value_alike : forall (R : value -> value -> Prop) (S : obj -> obj -> Prop), (forall a b, R (value_of a) (value_of b) -> S a b) ->
  forall a b, alike R (value_of a) (value_of b) -> agree S a b.
Proof.
  intros R S H a b Hab.
  assert (EE : forall skip l l', Forall2 (fun x y => fst x = fst y /\ R (snd x) (snd y)) (map (fun e : bytes * obj => (fst e, value_of (snd e))) l)
    (map (fun e : bytes * obj => (fst e, value_of (snd e))) l') -> entries_agree skip S l l').
  { clear a b Hab. intros skip. induction l as [|[k v] l IH]; intros [|[k' v'] l'] F; cbn [map] in F; inversion F as [|? ? ? ? (Hk & Hv) F']; subst.
    - split; intros ? ? [].
    - cbn [fst snd] in *. subst k'. destruct (IH _ F') as (A & B). split.
      + intros k0 w [E|Hin] Hs; [injection E as <- <-; exists v'; split; [left; reflexivity|auto]|]. destruct (A _ _ Hin Hs) as (w' & ? & ?). exists w'. split; [right; assumption|assumption].
      + intros k0 w [E|Hin] Hs; [injection E as <- <-; exists v; split; [left; reflexivity|auto]|]. destruct (B _ _ Hin Hs) as (w' & ? & ?). exists w'. split; [right; assumption|assumption]. }
  assert (AA : forall l l', Forall2 R (map value_of l) (map value_of l') -> Forall2 S l l').
  { clear a b Hab EE. induction l as [|x l IH]; intros [|y l'] F; cbn [map] in F; inversion F; subst; constructor; auto. }
  destruct a, b; cbn [Model.Save.value_of] in Hab; inversion Hab; subst;
    repeat match goal with H : is_number _ |- _ => first [contradiction|clear H] end;
    try (constructor; fail); try (eapply ag_text; reflexivity); try (apply ag_number; [exact I..|assumption]).
  - apply ag_arr. auto.
  - apply ag_dict. auto.
  - apply ag_stream. auto.
Qed.
Lemma similar_resembles : forall F F' (f f' : store), (forall n g, find_indirect F n g = value_of (f n g)) -> (forall n g, find_indirect F' n g = value_of (f' n g)) ->
  forall k a b, similar F F' k (value_of a) (value_of b) -> resembles f f' k a b.
Proof.
  intros F F' f f' HF HF'. induction k as [|k IH]; intros a b H; cbn [Spec.Save.resembles]; [exact I|]. cbn [similar] in H.
  rewrite (value_target F f HF), (value_target F' f' HF') in H. eapply value_alike; [exact IH|exact H].
Qed.

(** *** Redirected references *)
Definition follow_items := fix items (l : list obj) (w : list value) {struct l} : list obj :=
  match l, w with x :: l', y :: w' => Save.follow x y :: items l' w' | _, _ => l end.
Definition follow_entries := fix entries (l : list (bytes * obj)) (w : list (bytes * value)) {struct l} : list (bytes * obj) :=
  match l, w with (k, x) :: l', (_, y) :: w' => (k, Save.follow x y) :: entries l' w' | _, _ => l end.
Lemma follow_value : forall o v, shaped (value_of o) v -> value_of (Save.follow o v) = v.
Proof.
  assert (EE : forall l, Forall (fun e : bytes * obj => forall v, shaped (value_of (snd e)) v -> value_of (Save.follow (snd e) v) = v) l -> forall w,
    Forall2 (fun x y => fst x = fst y /\ shaped (snd x) (snd y)) (map (fun e => (fst e, value_of (snd e))) l) w ->
    map (fun e : bytes * obj => (fst e, value_of (snd e))) (follow_entries l w) = w).
  { induction 1 as [|[k x] l Hx Hl IHl]; intros w F; cbn [map] in F; inversion F as [|? y ? w' (F1 & F2) F3]; subst; [reflexivity|].
    destruct y as [k' y]. cbn [fst snd] in *. subst k'. cbn [follow_entries map fst snd]. rewrite IHl by exact F3. rewrite Hx by exact F2. reflexivity. }
  induction o as [l IH|l IH|l d IH|o Ho] using obj_induction; intros v H.
  - cbn [Model.Save.value_of] in H. inversion H as [? F| |? w F| |]; subst; [destruct F|]. change (value_of (OArr (follow_items l w)) = VArr w). cbn [Model.Save.value_of]. f_equal.
    clear H. revert w F. induction IH as [|x l Hx Hl IHl]; intros w F; cbn [map] in F; inversion F as [|? y ? w' F1 F2]; subst; [reflexivity|].
    cbn [follow_items map]. rewrite IHl by exact F2. rewrite Hx by exact F1. reflexivity.
  - cbn [Model.Save.value_of] in H. inversion H as [? F| | |? w F|]; subst; [destruct F|]. change (value_of (ODict (follow_entries l w)) = VDict w). cbn [Model.Save.value_of]. f_equal. apply EE; assumption.
  - cbn [Model.Save.value_of] in H. inversion H as [? F| | | |? w ? F]; subst; [destruct F|]. change (value_of (OStream (follow_entries l w) d) = VStream w d). cbn [Model.Save.value_of]. f_equal. apply EE; assumption.
  - destruct o; try destruct Ho; cbn [Model.Save.value_of] in H; inversion H; subst; reflexivity.
Qed.
End Resembles.

(** *** The objects of a list of entries *)
Definition is_at (n g : N) (p : xentry * obj) : bool := (xnum (fst p) =? n) && (xgen (fst p) =? g) && entry_in_use (fst p).
Definition held (l : list (xentry * obj)) : store := fun n g => match find (is_at n g) l with Some p => snd p | None => ONull end.
Definition holds (l : list (xentry * obj)) (n g : N) (o : obj) : Prop :=
  exists e, In (e, o) l /\ xnum e = n /\ xgen e = g /\ entry_in_use e = true.
Lemma is_at_spec : forall n g p, is_at n g p = true <-> xnum (fst p) = n /\ xgen (fst p) = g /\ entry_in_use (fst p) = true.
Proof. intros n g p. unfold is_at. rewrite !andb_true_iff, !N.eqb_eq. tauto. Qed.
Lemma sorted_nodup : forall l : list N, StronglySorted N.lt l -> NoDup l.
Proof.
  induction 1 as [|x l H IH Hx]; constructor; [|exact IH]. intros Hin. rewrite Forall_forall in Hx. specialize (Hx x Hin). lia.
Qed.
Lemma held_holds : forall l n g o, psorted l -> holds l n g o -> held l n g = o.
Proof.
  intros l n g o Hs (e & Hin & En & Eg & Hu). unfold held. destruct (find (is_at n g) l) as [q|] eqn:E.
  - apply find_some in E. destruct E as (Hq & E). apply is_at_spec in E. destruct E as (E & _).
    assert (q = (e, o)); [|subst q; reflexivity]. apply (distinct_same l); [|exact Hq|exact Hin|cbn [fst]; congruence].
    apply sorted_nodup. exact Hs.
  - exfalso. apply (find_none _ _ E) in Hin. enough (is_at n g (e, o) = true) by congruence. apply is_at_spec. auto.
Qed.
Lemma held_cases : forall l n g, holds l n g (held l n g) \/ (held l n g = ONull /\ forall o, ~ holds l n g o).
Proof.
  intros l n g. unfold held. destruct (find (is_at n g) l) as [[e o]|] eqn:E.
  - left. apply find_some in E. destruct E as (Hq & E). apply is_at_spec in E. exists e. cbn [fst snd] in *. tauto.
  - right. split; [reflexivity|]. intros o (e & Hin & En & Eg & Hu). apply (find_none _ _ E) in Hin.
    enough (is_at n g (e, o) = true) by congruence. apply is_at_spec. auto.
Qed.
Lemma held_not_null : forall l n g, held l n g <> ONull -> holds l n g (held l n g).
Proof. intros l n g H. destruct (held_cases l n g) as [H'|(E & _)]; [exact H'|contradiction]. Qed.

(** *** Merging the sections *)
Definition kept_number (n : N) (c : chain) : Prop :=
  forall newer s older e s' e', c = newer ++ s :: older -> In e (s_entries s) -> xnum e = n ->
    (forall x y, In x newer -> In y (s_entries x) -> xnum y <> n) ->
    In s' older -> In e' (s_entries s') -> xnum e' = n -> describes_object e' -> describes_object e /\ xgen e = xgen e'.
Definition plain_section (s : section) : Prop :=
  s_hybrid s = None /\ NoDup (map xnum (s_entries s)) /\
  forall e, In e (s_entries s) -> xgen e <= 65535 /\ match xdata e with KFree _ => True | KUsed _ u => u = true | KComp _ _ => True end.
Definition table_section (s : section) : Prop :=
  s_kind s = STable /\ s_hybrid s = None /\ NoDup (map xnum (s_entries s)) /\
  forall e, In e (s_entries s) -> xgen e <= 65535 /\ match xdata e with KFree _ => True | KUsed _ u => u = true | KComp _ _ => False end.
Lemma table_plain : forall s, table_section s -> plain_section s.
Proof. intros s (_ & A & B & C). split; [exact A|]. split; [exact B|]. intros e He. destruct (C e He) as (C1 & C2). split; [exact C1|]. destruct (xdata e); [exact I|exact C2|exact I]. Qed.

Lemma plain_items : forall s, plain_section s -> section_items s = s_entries s.
Proof. intros s (B & _). unfold section_items. rewrite B. destruct (s_kind s); apply app_nil_r. Qed.
Lemma plain_find : forall s n, plain_section s -> sec_find n s = xfind n (s_entries s).
Proof. intros s n (B & _). unfold sec_find. rewrite B. destruct (xfind n (s_entries s)); [|destruct (s_kind s)]; reflexivity. Qed.
Lemma nums_same : forall l x y, NoDup (map xnum l) -> In x l -> In y l -> xnum x = xnum y -> x = y.
Proof.
  induction l as [|z l IH]; intros x y Hd Hx Hy E; [destruct Hx|]. cbn [map] in Hd. inversion Hd as [|? ? Hn Hd']; subst.
  destruct Hx as [->|Hx], Hy as [->|Hy]; auto.
  - exfalso. apply Hn. rewrite E. apply in_map. exact Hy.
  - exfalso. apply Hn. rewrite <- E. apply in_map. exact Hx.
Qed.
Lemma xfind_in : forall n l e, NoDup (map xnum l) -> (xfind n l = Some e <-> In e l /\ xnum e = n).
Proof.
  intros n l e Hd. split.
  - intros H. apply find_some in H. destruct H as (H1 & H2). split; [exact H1|lia].
  - intros (H1 & H2). destruct (xfind n l) as [x|] eqn:E.
    + apply find_some in E. destruct E as (E1 & E2). f_equal. apply (nums_same l); auto. lia.
    + exfalso. apply (find_none _ _ E) in H1. cbn beta in H1. lia.
Qed.
Lemma resolve_kept : forall n c, Forall plain_section c -> kept_number n c -> forall g,
  resolve_entry n g c = match find (used_for n) (newest_first c) with Some e => if xgen e =? g then Some e else None | None => None end.
Proof.
  intros n. induction c as [|s c IH]; intros Hp Hk g; [reflexivity|]. inversion Hp as [|? ? Hs Hp']; subst.
  unfold resolve_entry. cbn [chain_entry]. change (newest_first (s :: c)) with (rev (section_items s) ++ newest_first c). rewrite find_app. rewrite (plain_items s Hs), (plain_find s n Hs).
  destruct (xfind n (s_entries s)) as [e|] eqn:E.
  - apply xfind_in in E; [|apply Hs]. destruct E as (Hin & En). assert (Hpe := proj2 (proj2 (proj2 Hs) e Hin)).
    assert (Hold : forall e', (exists s', In s' c /\ In e' (s_entries s')) -> xnum e' = n -> describes_object e' -> describes_object e /\ xgen e = xgen e').
    { intros e' (s' & Hs' & He') En' Hd'. apply (Hk [] s c e s' e'); auto. }
    assert (Hchain : forall g e', chain_entry n g c = Some e' -> (exists s', In s' c /\ In e' (s_entries s')) /\ xnum e' = n /\ xgen e' = g).
    { clear - Hp'. intros g e'. induction c as [|s c IH]; intros H; [discriminate|]. cbn [chain_entry] in H. inversion Hp' as [|? ? Hs Hp'']; subst.
      rewrite (plain_find s n Hs) in H. destruct (xfind n (s_entries s)) as [x|] eqn:E.
      - apply xfind_in in E; [|apply Hs]. destruct (xgen x =? g) eqn:Eg.
        + injection H as <-. split; [exists s; split; [left; reflexivity|apply E]|]. split; [apply E|lia].
        + destruct (IH Hp'' H) as ((s' & A & B) & D). split; [exists s'; split; [right; exact A|exact B]|exact D].
      - destruct (IH Hp'' H) as ((s' & A & B) & D). split; [exists s'; split; [right; exact A|exact B]|exact D]. }
    assert (Hfree : forall e', chain_entry n g c = Some e' -> xgen e <> g \/ ~ describes_object e -> match xdata e' with KFree _ => @None xentry | _ => Some e' end = None).
    { intros e' He' Hor. destruct (Hchain _ _ He') as (A & B & D). destruct (xdata e') eqn:Ex; [reflexivity|exfalso..].
      - assert (Hd' : describes_object e'). { unfold describes_object. rewrite Ex. destruct A as (s' & A1 & A2). rewrite Forall_forall in Hp'. destruct (Hp' s' A1) as (_ & _ & Hall). specialize (Hall e' A2). rewrite Ex in Hall. apply Hall. }
        destruct (Hold e' A B Hd') as (D1 & D2). destruct Hor as [Hor|Hor]; [congruence|contradiction].
      - destruct (Hold e' A B ltac:(unfold describes_object; rewrite Ex; exact I)) as (D1 & D2). destruct Hor as [Hor|Hor]; [congruence|contradiction]. }
    destruct (xdata e) as [nx|off u|st ix] eqn:Ex; [|subst u|].
    + (* the newest entry is free *)
      assert (Hnd : ~ describes_object e) by (unfold describes_object; rewrite Ex; tauto).
      replace (find (used_for n) (rev (s_entries s))) with (@None xentry).
      2: { destruct (find (used_for n) (rev (s_entries s))) as [x|] eqn:Ef; [|reflexivity]. apply find_some in Ef. destruct Ef as (Hx & Ef). apply in_rev in Hx. unfold used_for in Ef. apply andb_prop in Ef. destruct Ef as (Ef & Eu).
           assert (x = e) by (apply (nums_same (s_entries s)); [apply Hs|exact Hx|exact Hin|lia]). subst x. unfold entry_in_use in Eu. rewrite Ex in Eu. discriminate. }
      replace (find (used_for n) (newest_first c)) with (@None xentry).
      2: { destruct (find (used_for n) (newest_first c)) as [x|] eqn:Ef; [|reflexivity]. exfalso. apply find_some in Ef. destruct Ef as (Hx & Ef). unfold used_for in Ef. apply andb_prop in Ef. destruct Ef as (Ef & Eu).
           unfold newest_first in Hx. apply in_flat_map in Hx. destruct Hx as (s' & Hs' & Hx). apply in_rev in Hx. rewrite plain_items in Hx by (rewrite Forall_forall in Hp'; auto).
           apply Hnd. apply (Hold x); [exists s'; auto|lia|apply describes_in_use; exact Eu]. }
      destruct (xgen e =? g) eqn:Eg; [rewrite Ex; reflexivity|]. destruct (chain_entry n g c) as [e'|] eqn:Ec; [|reflexivity]. apply (Hfree e' eq_refl). right. exact Hnd.
    + replace (find (used_for n) (rev (s_entries s))) with (Some e).
      2: { destruct (find (used_for n) (rev (s_entries s))) as [x|] eqn:Ef.
           - apply find_some in Ef. destruct Ef as (Hx & Ef). apply in_rev in Hx. unfold used_for in Ef. apply andb_prop in Ef. f_equal. apply (nums_same (s_entries s)); [apply Hs|exact Hin|exact Hx|lia].
           - exfalso. apply in_rev in Hin; apply (find_none _ _ Ef) in Hin.
             unfold used_for, entry_in_use in Hin. rewrite Ex in Hin. lia. }
      destruct (xgen e =? g) eqn:Eg; [rewrite Ex; reflexivity|]. destruct (chain_entry n g c) as [e'|] eqn:Ec; [|reflexivity]. apply (Hfree e' eq_refl). left. lia.
    + replace (find (used_for n) (rev (s_entries s))) with (Some e).
      2: { destruct (find (used_for n) (rev (s_entries s))) as [x|] eqn:Ef.
           - apply find_some in Ef. destruct Ef as (Hx & Ef). apply in_rev in Hx. unfold used_for in Ef. apply andb_prop in Ef. f_equal. apply (nums_same (s_entries s)); [apply Hs|exact Hin|exact Hx|lia].
           - exfalso. apply in_rev in Hin; apply (find_none _ _ Ef) in Hin.
             unfold used_for, entry_in_use in Hin. rewrite Ex in Hin. lia. }
      destruct (xgen e =? g) eqn:Eg; [rewrite Ex; reflexivity|]. destruct (chain_entry n g c) as [e'|] eqn:Ec; [|reflexivity]. apply (Hfree e' eq_refl). left. lia.
  - replace (find (used_for n) (rev (s_entries s))) with (@None xentry).
    2: { destruct (find (used_for n) (rev (s_entries s))) as [x|] eqn:Ef; [|reflexivity]. apply find_some in Ef. destruct Ef as (Hx & Ef). apply in_rev in Hx. unfold used_for in Ef. apply andb_prop in Ef.
         apply (find_none _ _ E) in Hx. cbn beta in Hx. lia. }
    apply IH; [exact Hp'|]. intros newer s0 older e s' e' Ec Hin En Hn. apply (Hk (s :: newer) s0 older e s' e'); [rewrite Ec; reflexivity|exact Hin|exact En|].
    intros x y [<-|Hx] Hy; [|apply (Hn x y Hx Hy)]. apply (find_none _ _ E) in Hy. cbn beta in Hy. lia.
Qed.

(** deleted objects may come back; what is named with its latest generation stays *)
Lemma resolve_latest : forall n g c e, Forall plain_section c -> names_latest c n g -> resolve_entry n g c = Some e ->
  find (used_for n) (newest_first c) = Some e /\ xgen e = g.
Proof.
  intros n g. induction c as [|s c IH]; intros e Hp Hl H; [discriminate H|]. inversion Hp as [|? ? Hs Hp']; subst.
  unfold resolve_entry in H. cbn [chain_entry] in H. change (newest_first (s :: c)) with (rev (section_items s) ++ newest_first c). rewrite find_app. rewrite (plain_items s Hs). rewrite (plain_find s n Hs) in H.
  assert (Hrest : (forall y, In y (s_entries s) -> xnum y = n -> ~ describes_object y) -> resolve_entry n g c = Some e ->
    match find (used_for n) (rev (s_entries s)) with Some x => Some x | None => find (used_for n) (newest_first c) end = Some e /\ xgen e = g).
  { intros Hno Hr. destruct (IH e Hp') as (A & B); [|exact Hr|].
    - intros newer s0 older x Ec Hin En Hd Hn. apply (Hl (s :: newer) s0 older x); [rewrite Ec; reflexivity|exact Hin|exact En|exact Hd|].
      intros y z [<-|Hy] Hz Ez; [apply (Hno z Hz Ez)|apply (Hn y z Hy Hz Ez)].
    - replace (find (used_for n) (rev (s_entries s))) with (@None xentry); [split; assumption|].
      destruct (find (used_for n) (rev (s_entries s))) as [x|] eqn:Ef; [exfalso|reflexivity]. apply find_some in Ef. destruct Ef as (Hx & Ef). apply in_rev in Hx. unfold used_for in Ef. apply andb_prop in Ef.
      destruct Ef as (E1 & E2). apply (Hno x Hx); [lia|apply describes_in_use; exact E2]. }
  destruct (xfind n (s_entries s)) as [x|] eqn:E.
  - apply xfind_in in E; [|apply Hs]. destruct E as (Hin & En). destruct (xgen x =? g) eqn:Eg.
    + assert (Hu : entry_in_use x = true /\ x = e).
      { assert (Hx := proj2 (proj2 (proj2 Hs) x Hin)). unfold entry_in_use. destruct (xdata x) as [nx|off u|st ix]; [discriminate H|subst u; split; [reflexivity|congruence]|split; [reflexivity|congruence]]. }
      destruct Hu as (Hu & <-). replace (find (used_for n) (rev (s_entries s))) with (Some x); [split; [reflexivity|lia]|].
      destruct (find (used_for n) (rev (s_entries s))) as [y|] eqn:Ef.
      * apply find_some in Ef. destruct Ef as (Hy & Ef). apply in_rev in Hy. unfold used_for in Ef. apply andb_prop in Ef. f_equal. apply (nums_same (s_entries s)); [apply Hs|exact Hin|exact Hy|lia].
      * exfalso. apply in_rev in Hin. apply (find_none _ _ Ef) in Hin. unfold used_for in Hin. rewrite Hu in Hin. lia.
    + apply Hrest; [|exact H]. intros y Hy Ey Hd. assert (y = x) by (apply (nums_same (s_entries s)); [apply Hs|exact Hy|exact Hin|lia]). subst y.
      assert (G : xgen x = g) by (apply (Hl [] s c x); auto). lia.
  - apply Hrest; [|exact H]. intros y Hy Ey _. apply (find_none _ _ E) in Hy. cbn beta in Hy. lia.
Qed.

(** the merged section: its entries are in order, in use except the first, and come from the sections *)
Lemma add_used_sorted : forall k l t t', xsorted t -> add_used k l t = Ok t' -> xsorted t' /\
  (forall e, In e t' -> In e t \/ (In e l /\ entry_in_use e = true)) /\ (List.length t' <= List.length t + List.length l)%nat.
Proof.
  intros k. induction l as [|e l IH]; intros t t' Hs H; cbn [add_used] in H.
  - injection H as <-. split; [exact Hs|]. split; [auto|cbn; lia].
  - destruct (entry_in_use e) eqn:Eu.
    + apply rbind_ok in H. destruct H as (t1 & H1 & H). apply add_to_ok in H1. subst t1. destruct (IH _ _ (xadd_sorted e t Hs) H) as (A & B & C). split; [exact A|]. split.
      * intros x Hx. destruct (B x Hx) as [Hx'|(Hx' & Hu)]; [|right; split; [right; exact Hx'|exact Hu]]. destruct (xadd_In _ _ _ Hx') as [->|Hx'']; [right; split; [left; reflexivity|exact Eu]|left; exact Hx''].
      * assert (G : (List.length (xadd e t) <= S (List.length t))%nat).
        { clear. induction t as [|x t IHt]; cbn [xadd List.length]; [lia|]. destruct (_ <? _); cbn [List.length]; [lia|]. destruct (_ =? _); cbn [List.length]; lia. }
        cbn [List.length]. lia.
    + destruct (IH _ _ Hs H) as (A & B & C). split; [exact A|]. split; [|cbn [List.length]; lia].
      intros x Hx. destruct (B x Hx) as [Hx'|(Hx' & Hu)]; [left; exact Hx'|right; split; [right; exact Hx'|exact Hu]].
Qed.
Lemma merge_sections_sorted : forall k c t t', xsorted t -> merge_sections k c t = Ok t' -> xsorted t' /\
  (forall e, In e t' -> In e t \/ ((exists s, In s c /\ In e (section_items s)) /\ entry_in_use e = true)) /\
  (List.length t' <= List.length t + List.length (flat_map section_items c))%nat.
Proof.
  intros k. induction c as [|s c IH]; intros t t' Hs H; cbn [merge_sections] in H.
  - injection H as <-. split; [exact Hs|]. split; [auto|cbn; lia].
  - apply rbind_ok in H. destruct H as (t1 & H1 & H). destruct (add_used_sorted _ _ _ _ Hs H1) as (A1 & B1 & C1). destruct (IH _ _ A1 H) as (A & B & C). split; [exact A|]. split.
    + intros e He. destruct (B e He) as [He'|((s' & Hs' & He') & Hu)]; [|right; split; [exists s'; split; [right; exact Hs'|exact He']|exact Hu]].
      destruct (B1 e He') as [He''|(He'' & Hu)]; [left; exact He''|right; split; [exists s; split; [left; reflexivity|exact He'']|exact Hu]].
    + cbn [flat_map]. rewrite app_length. lia.
Qed.
Definition zero_entry : xentry := {| xnum := 0; xgen := 65535; xdata := KFree 0 |}.
Lemma merged_entries : forall hd c m, merge_chain hd c = Ok [m] -> xsorted (s_entries m) /\
  (forall e, In e (s_entries m) -> e = zero_entry \/ ((exists s, In s c /\ In e (section_items s)) /\ entry_in_use e = true)) /\
  (List.length (s_entries m) <= S (List.length (flat_map section_items c)))%nat.
Proof.
  intros hd c m H. unfold merge_chain in H. destruct c as [|s0 r]; [discriminate|]. destruct (merged_kind hd (s0 :: r)) as [k base].
  apply rbind_ok in H. destruct H as (t0 & H0 & H). apply rbind_ok in H. destruct H as (t & H1 & H). apply Ok_inj in H. injection H as <-. cbn [s_entries].
  apply add_to_ok in H0. subst t0. destruct (merge_sections_sorted _ _ _ _ (xadd_sorted zero_entry [] (SSorted_nil _)) H1) as (A & B & C).
  split; [exact A|]. split; [|exact C]. intros e He. destruct (B e He) as [[<-|[]]|He']; [left; reflexivity|right; exact He'].
Qed.

Definition with_content (content : xentry -> obj) (l : list xentry) : list (xentry * obj) := map (fun e => (e, content e)) l.
Lemma with_content_sorted : forall content l, xsorted l -> psorted (with_content content l).
Proof. intros content l H. unfold psorted. apply sorted_nums. unfold with_content. rewrite map_map. cbn [fst]. rewrite map_id. exact H. Qed.
Lemma merged_held : forall content c m, Forall plain_section c -> (forall n, kept_number n c) -> merge_chain (fun _ => []) (rev c) = Ok [m] ->
  forall n g, held (with_content content (s_entries m)) n g = document_objects content c n g.
Proof.
  intros content c m Hp Hk H n g. unfold document_objects. rewrite (resolve_kept n c Hp (Hk n)).
  assert (F := merged_find _ _ _ H n). destruct (merged_entries _ _ _ H) as (Hs & Hin & _).
  assert (Hd : NoDup (map xnum (s_entries m))).
  { apply sorted_nodup. assert (G := with_content_sorted content _ Hs). unfold psorted, with_content in G. rewrite map_map in G. exact G. }
  assert (Hps := with_content_sorted content _ Hs).
  destruct (find (used_for n) (newest_first c)) as [e|] eqn:E.
  - apply find_some in E. destruct E as (_ & E). unfold used_for in E. apply andb_prop in E. destruct E as (_ & Eu).
    apply xfind_in in F; [|exact Hd]. destruct F as (F1 & F2). destruct (xgen e =? g) eqn:Eg.
    + apply held_holds; [exact Hps|]. exists e. split; [apply (in_map (fun e => (e, content e))); exact F1|]. split; [exact F2|]. split; [lia|exact Eu].
    + destruct (held_cases (with_content content (s_entries m)) n g) as [(e' & H1 & H2 & H3 & H4)|(-> & _)]; [exfalso|reflexivity].
      apply in_map_iff in H1. destruct H1 as (e'' & He & H1). injection He as -> _. assert (e' = e) by (apply (nums_same (s_entries m)); congruence). subst e'. lia.
  - destruct (held_cases (with_content content (s_entries m)) n g) as [(e' & H1 & H2 & H3 & H4)|(-> & _)]; [exfalso|reflexivity].
    apply in_map_iff in H1. destruct H1 as (e'' & He & H1). injection He as -> _.
    destruct (n =? 0) eqn:E0.
    + apply xfind_in in F; [|exact Hd]. destruct F as (F1 & F2). assert (e' = {| xnum := 0; xgen := 65535; xdata := KFree 0 |}) by (apply (nums_same (s_entries m)); congruence). subst e'. discriminate H4.
    + apply (find_none _ _ F) in H1. cbn beta in H1. lia.
Qed.

Lemma merged_latest : forall content c m n g, Forall plain_section c -> merge_chain (fun _ => []) (rev c) = Ok [m] ->
  names_latest c n g -> document_objects content c n g <> ONull -> held (with_content content (s_entries m)) n g = document_objects content c n g.
Proof.
  intros content c m n g Hp H Hl. unfold document_objects. destruct (resolve_entry n g c) as [e|] eqn:E; [intros _|congruence].
  destruct (resolve_latest n g c e Hp Hl E) as (E1 & E2). assert (F := merged_find _ _ _ H n). rewrite E1 in F. destruct (merged_entries _ _ _ H) as (Hs & _).
  assert (Hps := with_content_sorted content _ Hs).
  assert (Hd : NoDup (map xnum (s_entries m))) by (apply sorted_nodup; assert (G := Hps); unfold psorted, with_content in G; rewrite map_map in G; exact G).
  apply xfind_in in F; [|exact Hd]. destruct F as (F1 & F2). apply find_some in E1. destruct E1 as (_ & E1). unfold used_for in E1. apply andb_prop in E1.
  apply held_holds; [exact Hps|]. exists e. split; [apply (in_map (fun e => (e, content e))); exact F1|]. split; [exact F2|]. split; [exact E2|apply E1].
Qed.

(** the trailer of the merged section *)
Lemma merged_kind_plain : forall c, Forall table_section c -> merged_kind (fun _ => []) c = (STable, []).
Proof.
  induction 1 as [|s c (A & B & _) H IH]; [reflexivity|]. cbn [merged_kind]. rewrite A, B. exact IH.
Qed.
Lemma merged_trailer_agrees : forall newest older m, Forall table_section (newest :: older) -> merge_chain (fun _ => []) (rev (newest :: older)) = Ok [m] ->
  s_kind m = STable /\
  agrees (s_trailer m) (fun k => if list_eq_dec N.eq_dec k (str "Prev") then None
     else if list_eq_dec N.eq_dec k (str "Size") then Some (OInt (Z.of_nat (List.length (s_entries newest))))
     else if in_dec (list_eq_dec N.eq_dec) k trailer_keys then sm_find k (s_trailer newest) else None).
Proof.
  intros newest older m Hp H. assert (Hk := merged_kind_plain (rev (newest :: older)) ltac:(apply Forall_rev; exact Hp)).
  unfold merge_chain in H. destruct (rev (newest :: older)) as [|s0 r] eqn:Er; [discriminate|]. rewrite Hk in H.
  apply rbind_ok in H. destruct H as (t0 & _ & H). apply rbind_ok in H. destruct H as (t & _ & H). apply Ok_inj in H. assert (Hm : m = {| s_kind := STable; s_entries := t; s_hybrid := None; s_trailer := sm_remove (str "Prev") (Verif.Model.Containers.dict_merge [] (clone_trailer (last (s0 :: r) s0))) |}) by congruence.
  subst m. cbn [s_kind s_trailer]. split; [reflexivity|].
  assert (El : last (s0 :: r) s0 = newest). { rewrite <- Er. cbn [rev]. apply last_last. }
  rewrite El. assert (A := clone_trailer_agrees newest). destruct A as (A1 & A2 & A3).
  eapply agrees_ext; [apply agrees_remove; [apply agrees_merge; [exact A2|exact A1|apply agrees_nil]|apply str_bytes]|].
  intros k Hb. unfold Verif.Spec.Containers.fm_del, beq. destruct (list_eq_dec N.eq_dec k (str "Prev")); [reflexivity|]. cbn [sm_find]. apply A3. exact Hb.
Qed.

(** *** Removing what nothing refers to *)
Lemma sorted_filter : forall (f : xentry * obj -> bool) l, psorted l -> psorted (filter f l).
Proof.
  intros f. unfold psorted. induction l as [|p l IH]; intros H; [exact H|]. cbn [map] in H. inversion H as [|? ? H1 H2]; subst. cbn [filter].
  destruct (f p); [|apply IH; exact H1]. cbn [map]. constructor; [apply IH; exact H1|]. rewrite Forall_forall in *. intros n Hn. apply H2.
  apply in_map_iff in Hn. destruct Hn as (q & <- & Hq). apply filter_In in Hq. apply in_map_iff. exists q. split; [reflexivity|apply Hq].
Qed.
Definition table_of (items : list (xentry * obj)) (trailer : list (bytes * obj)) : usection :=
  {| u_kind := STable; u_self := None; u_items := items; u_trailer := trailer |}.
Lemma remove_unused_single : forall order used items trailer, psorted items -> exists items',
  remove_unused order used [table_of items trailer] = [table_of items' trailer] /\ psorted items'.
Proof.
  intros order used. unfold remove_unused. induction order as [|n order IH]; intros items trailer Hs; cbn [fold_left]; [eauto|].
  destruct (mem n used); [apply IH; exact Hs|]. cbn [remove_entry]. destruct (item_find n (u_items (table_of items trailer))); [|apply IH; exact Hs].
  apply (IH (premove n items) trailer). apply sorted_filter. exact Hs.
Qed.
Definition closed_document (l : list (xentry * obj)) (trailer : obj) : Prop :=
  forall n g, (mentions n g trailer \/ exists m gm, mentions n g (held l m gm)) -> held l n g <> ONull.
Lemma stage_unreferenced : forall order items trailer c', psorted items -> any_order order ->
  remove_unreferenced (order items) [table_of items trailer] = Ok c' ->
  exists items', c' = [table_of items' trailer] /\ psorted items' /\ incl items' items /\
    (forall e o, In (e, o) items' -> entry_in_use e = true -> live (held items) (ODict trailer) (xnum e) (xgen e)) /\
    forall n g, (mentions n g (ODict trailer) \/ exists m gm, mentions n g (held items' m gm)) -> held items n g <> ONull -> held items' n g = held items n g.
Proof.
  intros order items trailer c' Hs Hord H. set (c := [table_of items trailer]) in *.
  assert (Hd : numbers_distinct c). { unfold numbers_distinct, c. cbn [flat_map u_items table_of]. rewrite app_nil_r. apply sorted_nodup. exact Hs. }
  assert (Hl : lists_numbers c (order items)).
  { intros n. rewrite (Hord items n). unfold c. split.
    - intros (e & o & A & B). exists (table_of items trailer), e, o. split; [left; reflexivity|]. split; [exact A|exact B].
    - intros (s & e & o & [<-|[]] & A & B). exists e, o. split; [exact A|exact B]. }
  assert (G : exists items', c' = [table_of items' trailer] /\ psorted items').
  { unfold remove_unreferenced in H. apply rbind_ok in H. destruct H as (r & _ & H). apply rbind_ok in H. destruct H as (used & _ & H). apply Ok_inj in H. subst c'. apply remove_unused_single. exact Hs. }
  destruct G as (items' & -> & Hs'). exists items'. split; [reflexivity|]. split; [exact Hs'|].
  assert (K := Verif.Props.Unreferenced.C29_exactly_reachable (order items) c [table_of items' trailer] Hd Hl H).
  assert (Hk : forall p, In p items' <-> In p items /\ ((exists next, xdata (fst p) = KFree next) \/ reachable c (xnum (fst p)))).
  { intros p. inversion K as [|? ? ? ? (_ & _ & _ & K') _]; subst. apply K'. }
  assert (Hin : incl items' items) by (intros p Hp; apply Hk in Hp; apply Hp).
  assert (Hobj : forall it n g o, holds it n g o <-> has_object [table_of it trailer] n g o).
  { intros it n0 g0 o. split.
    - intros (e & A & B & C & D). exists (table_of it trailer), e. split; [left; reflexivity|]. split; [exact A|]. split; [exact B|]. split; [exact C|apply in_use_describes; exact D].
    - intros (s & e & [<-|[]] & A & B & C & D). exists e. split; [exact A|]. split; [exact B|]. split; [exact C|apply in_use_describes; exact D]. }
  assert (Hlive : forall n, reachable c n -> exists g o, holds items n g o /\ live (held items) (ODict trailer) n g).
  { intros n Hr. induction Hr as [s n g o [<-|[]] _ Hm Ho|s n [<-|[]] Ek _|s e o n i [<-|[]] Ek _ _|m gm o n g o' _ (gm' & o1 & H1 & IH) Ho Hm Ho']; try discriminate Ek.
    - exists g, o. split; [apply Hobj; exact Ho|]. apply live_trailer. exact Hm.
    - exists g, o'. split; [apply Hobj; exact Ho'|]. apply Hobj in Ho. apply live_step with (m := m) (gm := gm).
      + destruct H1 as (e1 & A1 & B1 & C1 & _). destruct Ho as (e2 & A2 & B2 & C2 & _).
        assert (E : (e1, o1) = (e2, o)) by (apply (Verif.Proof.Unreferenced.distinct_same items); [apply sorted_nodup; exact Hs|exact A1|exact A2|cbn [fst]; congruence]).
        injection E as -> _. replace gm with gm' by congruence. exact IH.
      + rewrite (held_holds items m gm o Hs Ho). exact Hm. }
  split; [exact Hin|]. split.
  { intros e o He Hu. apply Hk in He. destruct He as (He & [(nx & E)|Hr]); cbn [fst] in *; [unfold entry_in_use in Hu; rewrite E in Hu; discriminate Hu|].
    destruct (Hlive _ Hr) as (g & o1 & (e1 & A1 & B1 & C1 & _) & L).
    assert (E : (e1, o1) = (e, o)) by (apply (Verif.Proof.Unreferenced.distinct_same items); [apply sorted_nodup; exact Hs|exact A1|exact He|cbn [fst]; congruence]).
    injection E as -> _. rewrite C1. exact L. }
  intros n g Hm Hne. apply held_not_null in Hne. apply held_holds; [exact Hs'|].
  apply Hobj. apply (Verif.Props.Unreferenced.C29_references_resolve (order items) c _ n g _ Hd Hl H); [apply Hobj; exact Hne|].
  destruct Hm as [Hm|(m & gm & Hm)].
  - left. exists (table_of items' trailer). split; [left; reflexivity|]. split; [reflexivity|exact Hm].
  - right. exists m, gm, (held items' m gm). split; [|exact Hm]. apply Hobj. destruct (held_cases items' m gm) as [Ho|(E & _)]; [exact Ho|rewrite E in Hm; inversion Hm].
Qed.

Lemma same_store : forall real (f f' : store), (forall n g n' g', f' n g <> ORef n' g') ->
  (forall n g m gm, mentions n g (f' m gm) -> f n g = f' n g) ->
  forall a, (forall n g, mentions n g a -> f n g = f' n g) -> forall k, resembles real f f' k a a.
Proof.
  intros real f f' Hn Hf a Ha k. apply (bisimulation real f f' (fun a b => a = b /\ forall n g, mentions n g a -> f n g = f' n g)); [|auto].
  clear a Ha k. intros a b (<- & Ha).
  assert (E : seen_at f a = seen_at f' a /\ (forall n g, seen_at f' a <> ORef n g) /\ forall n g, mentions n g (seen_at f' a) -> f n g = f' n g).
  { destruct a; try (split; [reflexivity|split; [discriminate|exact Ha]]). cbn [seen_at]. split; [apply Ha; constructor|]. split; [apply Hn|]. intros n g Hm. apply (Hf _ _ _ _ Hm). }
  destruct E as (-> & H1 & H2). apply agree_self; [exact H1|]. destruct (seen_at f' a) as [|b|z|neg mm p|nm|v|v|n g|l|m|m d]; try exact I; rewrite Forall_forall; intros x Hx; (split; [reflexivity|]); intros n g Hm; apply H2.
  - eapply Spec.Unreferenced.m_arr; eassumption.
  - destruct x as [kx x]. eapply Spec.Unreferenced.m_dict; eassumption.
  - destruct x as [kx x]. eapply Spec.Unreferenced.m_stream; eassumption.
Qed.

(** *** Objects that differ in their references only *)
Inductive reshaped : obj -> obj -> Prop :=
| rs_leaf : forall o, match o with ORef _ _ | OArr _ | ODict _ | OStream _ _ => False | _ => True end -> reshaped o o
| rs_ref : forall n g n' g', reshaped (ORef n g) (ORef n' g')
| rs_arr : forall l l', Forall2 reshaped l l' -> reshaped (OArr l) (OArr l')
| rs_dict : forall l l', Forall2 (fun x y => fst x = fst y /\ reshaped (snd x) (snd y)) l l' -> reshaped (ODict l) (ODict l')
| rs_stream : forall l l' d, Forall2 (fun x y => fst x = fst y /\ reshaped (snd x) (snd y)) l l' -> reshaped (OStream l d) (OStream l' d).
Lemma follow_reshaped : forall real o v, shaped (value_of real o) v -> reshaped o (Save.follow o v).
Proof.
  intros real.
  assert (EE : forall l, Forall (fun e : bytes * obj => forall v, shaped (value_of real (snd e)) v -> reshaped (snd e) (Save.follow (snd e) v)) l -> forall w,
    Forall2 (fun x y => fst x = fst y /\ shaped (snd x) (snd y)) (map (fun e => (fst e, value_of real (snd e))) l) w ->
    Forall2 (fun x y => fst x = fst y /\ reshaped (snd x) (snd y)) l (follow_entries l w)).
  { induction 1 as [|[k x] l Hx Hl IHl]; intros w F; cbn [map] in F; inversion F as [|? y ? w' (F1 & F2) F3]; subst; [constructor|].
    destruct y as [k' y]. cbn [fst snd] in *. subst k'. cbn [follow_entries]. constructor; [split; [reflexivity|apply Hx; exact F2]|apply IHl; exact F3]. }
  induction o as [l IH|l IH|l d IH|o Ho] using obj_induction; intros v H.
  - cbn [Model.Save.value_of] in H. inversion H as [? F| |? w F| |]; subst; [destruct F|]. change (reshaped (OArr l) (OArr (follow_items l w))). apply rs_arr.
    clear H. revert w F. induction IH as [|x l Hx Hl IHl]; intros w F; cbn [map] in F; inversion F as [|? y ? w' F1 F2]; subst; [constructor|].
    cbn [follow_items]. constructor; auto.
  - cbn [Model.Save.value_of] in H. inversion H as [? F| | |? w F|]; subst; [destruct F|]. change (reshaped (ODict l) (ODict (follow_entries l w))). apply rs_dict. apply EE; assumption.
  - cbn [Model.Save.value_of] in H. inversion H as [? F| | | |? w ? F]; subst; [destruct F|]. change (reshaped (OStream l d) (OStream (follow_entries l w) d)). apply rs_stream. apply EE; assumption.
  - destruct o; try destruct Ho; cbn [Model.Save.value_of] in H; inversion H; subst; try contradiction; try (apply rs_leaf; exact I); apply rs_ref.
Qed.
Lemma rename_reshaped : forall f o, reshaped o (rename f o).
Proof.
  intros f. induction o as [l IH|l IH|l d IH|o Ho] using obj_induction.
  - cbn [rename]. apply rs_arr. induction IH; cbn [map]; constructor; auto.
  - cbn [rename]. apply rs_dict. induction IH; cbn [map]; constructor; auto.
  - cbn [rename]. apply rs_stream. induction IH; cbn [map]; constructor; auto.
  - destruct o; try destruct Ho; cbn [rename]; try (apply rs_leaf; exact I). apply rs_ref.
Qed.
Lemma reshaped_refl : forall o, reshaped o o.
Proof.
  induction o as [l IH|l IH|l d IH|o Ho] using obj_induction.
  - apply rs_arr. apply Forall2_refl_in. exact IH.
  - apply rs_dict. apply Forall2_refl_in. eapply Forall_impl; [|exact IH]. cbn beta. auto.
  - apply rs_stream. apply Forall2_refl_in. eapply Forall_impl; [|exact IH]. cbn beta. auto.
  - destruct o; try destruct Ho; try (apply rs_leaf; exact I). apply rs_ref.
Qed.
Lemma reshaped_trans : forall a b c, reshaped a b -> reshaped b c -> reshaped a c.
Proof.
  assert (IE : forall l, Forall (fun e : bytes * obj => forall b c, reshaped (snd e) b -> reshaped b c -> reshaped (snd e) c) l -> forall l' l'',
    Forall2 (fun x y => fst x = fst y /\ reshaped (snd x) (snd y)) l l' -> Forall2 (fun x y => fst x = fst y /\ reshaped (snd x) (snd y)) l' l'' ->
    Forall2 (fun x y => fst x = fst y /\ reshaped (snd x) (snd y)) l l'').
  { induction 1 as [|x l Hx Hl IHl]; intros l' l'' H1 H2; inversion H1 as [|? ? ? ? (A & B) H1']; subst; inversion H2 as [|? ? ? ? (A' & B') H2']; subst; constructor; [split; [congruence|eauto]|eauto]. }
  induction a as [l IH|l IH|l d IH|o Ho] using obj_induction; intros b c H1 H2.
  - inversion H1 as [? F| |? l' F| |]; subst; [destruct F|]. inversion H2 as [? F'| |? l'' F'| |]; subst; [destruct F'|]. apply rs_arr. clear H1 H2.
    revert l' l'' F F'. induction IH as [|x l Hx Hl IHl]; intros l' l'' F F'; inversion F; subst; inversion F'; subst; constructor; eauto.
  - inversion H1 as [? F| | |? l' F|]; subst; [destruct F|]. inversion H2 as [? F'| | |? l'' F'|]; subst; [destruct F'|]. apply rs_dict. eapply IE; eassumption.
  - inversion H1 as [? F| | | |? l' ? F]; subst; [destruct F|]. inversion H2 as [? F'| | | |? l'' ? F']; subst; [destruct F'|]. apply rs_stream. eapply IE; eassumption.
  - destruct o; try destruct Ho; inversion H1; subst; try contradiction; inversion H2; subst; try contradiction; try (apply rs_leaf; exact I); apply rs_ref.
Qed.

(** what can be written can still be written when its references have other small numbers *)
Definition small_references (o : obj) : Prop := forall n g, mentions n g o -> n < 2 ^ 63 /\ g <= 65535.
Lemma keys_same : forall (P : obj -> obj -> Prop) (l l' : list (bytes * obj)), Forall2 (fun x y => fst x = fst y /\ P (snd x) (snd y)) l l' -> map fst l = map fst l'.
Proof. intros P l l' H. induction H as [|x y l l' (E & _) H IH]; [reflexivity|]. cbn [map]. congruence. Qed.
Lemma keys_sorted_map : forall l l' : list (bytes * obj), map fst l = map fst l' -> keys_sorted l -> keys_sorted l'.
Proof.
  intros l l' E H. unfold keys_sorted in *. revert l' E. induction H as [|x l H IH Hx]; intros [|y l'] E; try discriminate; [constructor|].
  injection E as E1 E2. constructor; [apply IH; exact E2|]. rewrite Forall_forall in *. intros z Hz. apply (in_map fst) in Hz. rewrite <- E2 in Hz. apply in_map_iff in Hz. destruct Hz as (z' & Ez & Hz).
  specialize (Hx z' Hz). unfold bytes in *. rewrite E1, Ez in Hx. exact Hx.
Qed.
Lemma reshaped_writable : forall o o', reshaped o o' -> writable o -> small_references o' -> writable o'.
Proof.
  induction o as [l IH|l IH|l d IH|o Ho] using obj_induction; intros o' H Hw Hr.
  - inversion H as [? F| |? l' F| |]; subst; [destruct F|]. inversion Hw as [| | | | | | | |? Hl|]; subst. apply w_arr. rewrite Forall_forall. intros y Hy.
    destruct (Forall2_In_r' _ _ _ _ F Hy) as (x & Hx & Hxy). rewrite Forall_forall in IH, Hl. apply (IH x Hx); [exact Hxy|apply Hl; exact Hx|]. intros n g Hm. apply Hr. eapply Spec.Unreferenced.m_arr; eassumption.
  - inversion H as [? F| | |? l' F|]; subst; [destruct F|]. inversion Hw as [| | | | | | | | |? Hk Ha Hl]; subst. apply w_dict.
    + eapply keys_sorted_map; [|exact Hk]. eapply (keys_same reshaped). exact F.
    + rewrite Forall_forall in *. intros y Hy. destruct (Forall2_In_r' _ _ _ _ F Hy) as (x & Hx & (E & Hxy)). destruct (Ha x Hx) as (A & B). unfold bytes in *. rewrite <- E. split; [exact A|].
      intros E0. rewrite E0 in Hxy. inversion Hxy; subst; try contradiction; apply B; congruence.
    + rewrite Forall_forall in *. intros v Hv. apply in_map_iff in Hv. destruct Hv as (y & <- & Hy). destruct (Forall2_In_r' _ _ _ _ F Hy) as (x & Hx & (E & Hxy)).
      apply (IH x Hx); [exact Hxy|apply Hl; apply in_map; exact Hx|]. intros n g Hm. apply Hr. destruct y as [ky y]. eapply Spec.Unreferenced.m_dict; eassumption.
  - inversion Hw.
  - destruct o; try destruct Ho; inversion H as [? F|? ? n' g'| | |]; subst; try exact Hw; try contradiction. destruct (Hr n' g' (Spec.Unreferenced.m_ref n' g')) as (A & B). apply w_ref; assumption.
Qed.
Lemma reshaped_storable : forall o o', reshaped o o' -> storable o -> small_references o' -> storable o'.
Proof.
  intros o o' H Hs Hr. destruct Hs as [o Hw|m data Hw Hlen Hd].
  - apply st_direct. eapply reshaped_writable; eassumption.
  - inversion H as [? F| | | |? l' ? F]; subst; [destruct F|]. apply st_stream; [| |exact Hd].
    + eapply reshaped_writable; [apply rs_dict; exact F|exact Hw|]. intros n g Hm. apply Hr. inversion Hm as [| |? k o Hin Hm'|]; subst. eapply Spec.Unreferenced.m_stream; eassumption.
    + intros v Hv. destruct (Forall2_In_r' _ _ _ _ F Hv) as ([k x] & Hx & (E & Hxy)). cbn [fst snd] in *. subst k. destruct (Hlen x Hx) as (z & -> & Hz).
      inversion Hxy; subst. exists z. split; [reflexivity|exact Hz].
Qed.

(** *** Merging equal objects *)
Fixpoint vrefs (v : value) : list (N * N) :=
  match v with
  | VRef n g => [(n, g)]
  | VArr l => flat_map vrefs l
  | VDict l | VStream l _ => flat_map (fun e => vrefs (snd e)) l
  | _ => []
  end.
Lemma value_refs : forall real o, vrefs (value_of real o) = refs o.
Proof.
  intros real. assert (EE : forall l, Forall (fun e : bytes * obj => vrefs (value_of real (snd e)) = refs (snd e)) l ->
    flat_map (fun e => vrefs (snd e)) (map (fun e : bytes * obj => (fst e, value_of real (snd e))) l) = flat_map (fun e => refs (snd e)) l).
  { induction 1 as [|x l Hx Hl IHl]; [reflexivity|]. cbn [map flat_map snd]. rewrite Hx, IHl. reflexivity. }
  induction o as [l IH|l IH|l d IH|o Ho] using obj_induction.
  - cbn [Model.Save.value_of vrefs refs]. induction IH as [|x l Hx Hl IHl]; [reflexivity|]. cbn [map flat_map]. rewrite Hx, IHl. reflexivity.
  - apply EE. exact IH.
  - apply EE. exact IH.
  - destruct o; try destruct Ho; reflexivity.
Qed.
Lemma value_null : forall real o, value_of real o = VNull <-> o = ONull.
Proof. intros real o. split; [destruct o; try discriminate; reflexivity|intros ->; reflexivity]. Qed.
Lemma all_depths : forall {A B} (R : nat -> A -> B -> Prop) l l', (forall k, Forall2 (R k) l l') -> Forall2 (fun x y => forall k, R k x y) l l'.
Proof.
  intros A B R l. induction l as [|x l IH]; intros l' H.
  - assert (H0 := H O). inversion H0. constructor.
  - destruct l' as [|y l']; [specialize (H O); inversion H|]. constructor; [intros k; specialize (H k); inversion H; assumption|]. apply IH. intros k. specialize (H k). inversion H; assumption.
Qed.
Lemma shaped_targets : forall F F' v w, shaped v w -> says_the_same F F' v w ->
  forall n g, In (n, g) (vrefs w) -> exists n0 g0, In (n0, g0) (vrefs v) /\ says_the_same F F' (VRef n0 g0) (VRef n g).
Proof.
  intros F F'.
  assert (EE : forall l, Forall (fun e : bytes * value => forall w, shaped (snd e) w -> says_the_same F F' (snd e) w ->
      forall n g, In (n, g) (vrefs w) -> exists n0 g0, In (n0, g0) (vrefs (snd e)) /\ says_the_same F F' (VRef n0 g0) (VRef n g)) l -> forall l',
    Forall2 (fun x y => fst x = fst y /\ shaped (snd x) (snd y)) l l' ->
    (forall k, Forall2 (fun x y => fst x = fst y /\ similar F F' k (snd x) (snd y)) l l') ->
    forall n g, In (n, g) (flat_map (fun e => vrefs (snd e)) l') -> exists n0 g0, In (n0, g0) (flat_map (fun e => vrefs (snd e)) l) /\ says_the_same F F' (VRef n0 g0) (VRef n g)).
  { intros l H l' Hs Hk n g Hin. apply in_flat_map in Hin. destruct Hin as (y & Hy & Hin). apply all_depths in Hk.
    destruct (Forall2_In_r' _ _ _ _ (Forall2_and' _ _ _ _ Hs Hk) Hy) as (x & Hx & (_ & S1) & S2). rewrite Forall_forall in H.
    destruct (H x Hx (snd y) S1 (fun k => proj2 (S2 k)) n g Hin) as (n0 & g0 & A & B). exists n0, g0. split; [apply in_flat_map; exists x; auto|exact B]. }
  induction v as [|x|q|q|nm|h s|n g|l IH|l IH|l x IH] using value_ind'; intros w Hsh Hs; inversion Hsh as [? Fa|? ? n' g'|? l' Fa|? l' Fa|? l' ? Fa]; subst; try contradiction; try (intros ? ? []; fail).
  - intros n0 g0 [E|[]]. injection E as <- <-. exists n, g. split; [left; reflexivity|exact Hs].
  - intros n0 g0 Hin. cbn [vrefs] in Hin. apply in_flat_map in Hin. destruct Hin as (y & Hy & Hin).
    assert (Hk : forall k, Forall2 (similar F F' k) l l'). { intros k. specialize (Hs (S k)). cbn [similar target] in Hs. inversion Hs as [| | | |? ? A| | |? ? A]; subst; [exact A|destruct A]. }
    apply all_depths in Hk. destruct (Forall2_In_r' _ _ _ _ (Forall2_and' _ _ _ _ Fa Hk) Hy) as (x & Hx & S1 & S2). rewrite Forall_forall in IH.
    destruct (IH x Hx y S1 S2 n0 g0 Hin) as (n1 & g1 & A & B). exists n1, g1. split; [cbn [vrefs]; apply in_flat_map; exists x; auto|exact B].
  - apply (EE l IH l' Fa). intros k. specialize (Hs (S k)). cbn [similar target] in Hs. inversion Hs as [| | | | |? ? A| |? ? A]; subst; [exact A|destruct A].
  - apply (EE l IH l' Fa). intros k. specialize (Hs (S k)). cbn [similar target] in Hs. inversion Hs as [| | | | | |? ? ? A|? ? A]; subst; [exact A|destruct A].
Qed.

Definition no_references (l : list (xentry * obj)) : Prop := forall e o n g, In (e, o) l -> entry_in_use e = true -> o <> ORef n g.
Definition plain_entries (l : list (xentry * obj)) : Prop := forall e o, In (e, o) l -> xgen e <= 65535 /\ (e = zero_entry \/ exists offset, xdata e = KUsed offset true).
Definition own_or_steady (real : bool -> N -> N -> dbl) (hash : value -> N) (l : list (xentry * obj)) : Prop :=
  forall e o, In (e, o) l -> entry_in_use e = true ->
    steady hash {| d_num := xnum e; d_gen := xgen e; d_comp := false; d_value := value_of real o; d_cache := 0 |} \/
    exists m d, o = OStream m d /\ forall e' m', In (e', OStream m' d) l -> entry_in_use e' = true -> xnum e' = xnum e /\ xgen e' = xgen e.

(** what a redirected object has to do with the original *)
Definition redirected (real : bool -> N -> N -> dbl) (f f' : store) (o o' : obj) : Prop :=
  reshaped o o' /\ (forall k, resembles real f f' k o o') /\
  forall n g, mentions n g o' -> exists n0 g0, mentions n0 g0 o /\ forall k, resembles real f f' k (ORef n0 g0) (ORef n g).
Definition stored (e : xentry) : Prop := match xdata e with KComp _ _ => False | _ => True end.
Lemma duplicates_merged : forall real hash arrange items trailer items3 trailer3,
  any_arrangement arrange -> psorted items -> no_references items ->
  (forall e o, In (e, o) items -> entry_in_use e = true -> stored e ->
    steady hash {| d_num := xnum e; d_gen := xgen e; d_comp := false; d_value := value_of real o; d_cache := 0 |} \/
    exists m d, o = OStream m d /\ forall e' m', In (e', OStream m' d) items -> entry_in_use e' = true -> xnum e' = xnum e /\ xgen e' = xgen e) ->
  merge_equal real hash arrange items trailer = Ok (items3, trailer3) ->
  map (fun p => xnum (fst p)) items3 = map (fun p => xnum (fst p)) items /\
  (forall e o, In (e, o) items3 ->
    (exists o0, In (e, o0) items /\ ((entry_in_use e = false /\ o = o0) \/ (entry_in_use e = true /\ redirected real (held items) (held items3) o0 o))) \/
    (exists n, e = {| xnum := n; xgen := 0; xdata := KFree 0 |})) /\
  (forall e o, In (e, o) items -> entry_in_use e = true -> exists e' o', In (e', o') items3 /\ entry_in_use e' = true /\ forall k, resembles real (held items) (held items3) k o o') /\
  redirected real (held items) (held items3) (ODict trailer) (ODict trailer3).
Proof.
  intros real hash arrange items trailer items3 trailer3 Harr Hs Hn Hst H. unfold merge_equal in H. apply rbind_ok in H. destruct H as ([l' t'] & Hr & H).
  set (l := arrange (map (ditem_of real) (filter (fun p => entry_in_use (fst p)) items))) in *.
  assert (Hl : forall x, In x l <-> exists e o, In (e, o) items /\ entry_in_use e = true /\ x = ditem_of real (e, o)).
  { intros x. assert (P := Harr (map (ditem_of real) (filter (fun p => entry_in_use (fst p)) items))). fold l in P. split.
    - intros Hx. apply (Permutation_in _ P) in Hx. apply in_map_iff in Hx. destruct Hx as ([e o] & <- & Hx). apply filter_In in Hx. destruct Hx as (A & B). exists e, o. auto.
    - intros (e & o & A & B & ->). apply (Permutation_in _ (Permutation_sym P)). apply in_map. apply filter_In. auto. }
  assert (Hid : ids_distinct l).
  { unfold ids_distinct. assert (P := Permutation_map d_id (Harr (map (ditem_of real) (filter (fun p => entry_in_use (fst p)) items)))). fold l in P.
    apply (Permutation_NoDup (Permutation_sym P)). rewrite map_map. assert (Hf := sorted_filter (fun p => entry_in_use (fst p)) items Hs). apply sorted_nodup in Hf.
    apply (NoDup_map_inv fst). rewrite map_map. exact Hf. }
  assert (Hnum : forall e o e' o', In (e, o) items -> In (e', o') items -> xnum e = xnum e' -> e = e' /\ o = o').
  { intros e o e' o' A B E. assert (G : (e, o) = (e', o')) by (apply (distinct_same items); [apply sorted_nodup; exact Hs|exact A|exact B|exact E]). injection G as -> ->. auto. }
  assert (Hnr : no_reference_objects l).
  { unfold no_reference_objects. rewrite Forall_forall. intros x Hx n g. apply Hl in Hx. destruct Hx as (e & o & A & B & ->). cbn [ditem_of d_value snd]. intros E. apply (Hn e o n g A B). destruct o; try discriminate E. cbn [Model.Save.value_of] in E. congruence. }
  assert (Hsteady : forall x, In x l -> d_comp x = false -> steady hash x \/ own_data l x).
  { intros x Hx C. apply Hl in Hx. destruct Hx as (e & o & A & B & ->). destruct (Hst e o A B) as [S1|(m & d & -> & S1)].
    - unfold stored. cbn [ditem_of d_comp fst] in C. destruct (xdata e); [exact I|exact I|discriminate C].
    - left. unfold ditem_of in *. cbn [fst snd d_comp] in *. rewrite C. exact S1.
    - right. unfold own_data. cbn [ditem_of d_value snd Model.Save.value_of]. do 2 eexists. split; [reflexivity|]. intros y e' Hy Ey. apply Hl in Hy. destruct Hy as (e2 & o2 & A2 & B2 & ->).
      cbn [ditem_of d_value snd] in Ey. destruct o2; try discriminate Ey. cbn [Model.Save.value_of] in Ey. injection Ey as _ ->. destruct (S1 _ _ A2 B2) as (E1 & E2). unfold d_id. cbn [ditem_of d_num d_gen fst]. congruence. }
  assert (Hm : merged l (value_of real (ODict trailer)) l' t') by (eapply rounds_spec; eassumption).
  destruct (rounds_shaped hash _ _ _ _ _ Hid Hr) as (Hid' & Hsht & Hshi).
  assert (Hy : forall y, In y l' -> exists e o, In (e, o) items /\ entry_in_use e = true /\ d_id y = (xnum e, xgen e) /\ shaped (value_of real o) (d_value y) /\
    says_the_same (objects l) (objects l') (value_of real o) (d_value y)).
  { intros y Hy. destruct (Hshi y Hy) as (x & Hx & (I1 & _ & I2)). destruct Hm as (_ & Hm & _). destruct (Hm y Hy) as (x2 & Hx2 & J1 & J2).
    assert (x2 = x) by (apply (distinct_item l); congruence). subst x2. apply Hl in Hx. destruct Hx as (e & o & A & B & ->). exists e, o. split; [exact A|]. split; [exact B|]. split; [rewrite <- I1; reflexivity|]. auto. }
  assert (Hv : forall n g, find_indirect (objects l) n g = value_of real (held items n g)).
  { intros n g. rewrite find_objects. destruct (held_cases items n g) as [Ho|(-> & Ho)].
    - destruct Ho as (e & A & B & C & D). assert (Hx : In (ditem_of real (e, held items n g)) l) by (apply Hl; do 2 eexists; eauto). apply (find_item_in _ _ Hid) in Hx.
      unfold d_id in Hx. cbn [ditem_of d_num d_gen fst] in Hx. rewrite B, C in Hx. rewrite Hx. reflexivity.
    - destruct (find_item l (n, g)) as [x|] eqn:E; [exfalso|reflexivity]. apply find_item_some in E. destruct E as (E1 & E2). apply Hl in E1. destruct E1 as (e & o & A & B & ->).
      unfold d_id in E2. cbn [ditem_of d_num d_gen fst] in E2. injection E2 as E2 E3. apply (Ho o). exists e. auto. }
  apply Ok_inj in H. assert (H1 := f_equal fst H). assert (H2 := f_equal snd H). cbn [fst snd] in H1, H2. clear H.
  assert (Hnums : map (fun p => xnum (fst p)) items3 = map (fun p => xnum (fst p)) items).
  { rewrite <- H1, map_map. apply map_ext. intros [e o]. unfold after_duplicates. cbn [fst snd]. destruct (entry_in_use e); [|reflexivity]. destruct (find_item l' _); reflexivity. }
  assert (Hs3 : psorted items3) by (unfold psorted; rewrite Hnums; exact Hs).
  (* the entries afterwards *)
  assert (Hent : forall e o, In (e, o) items3 -> exists e0 o0, In (e0, o0) items /\
     ((entry_in_use e0 = true /\ e = e0 /\ exists y, find_item l' (xnum e, xgen e) = Some y /\ shaped (value_of real o0) (d_value y) /\ o = Save.follow o0 (d_value y) /\
         says_the_same (objects l) (objects l') (value_of real o0) (d_value y)) \/
      (entry_in_use e0 = true /\ e = {| xnum := xnum e0; xgen := 0; xdata := KFree 0 |}) \/ (entry_in_use e0 = false /\ e = e0 /\ o = o0))).
  { intros e o Hin. rewrite <- H1 in Hin. apply in_map_iff in Hin. destruct Hin as ([e0 o0] & Ea & Hin). exists e0, o0. split; [exact Hin|].
    unfold after_duplicates in Ea. cbn [fst snd] in Ea. destruct (entry_in_use e0) eqn:Eu; [|right; right; injection Ea as <- <-; auto].
    destruct (find_item l' (xnum e0, xgen e0)) as [y|] eqn:Ef; [|right; left; injection Ea as <- _; auto].
    left. split; [reflexivity|]. injection Ea as <- <-. split; [reflexivity|]. exists y. split; [exact Ef|]. apply find_item_some in Ef. destruct Ef as (F1 & F2).
    destruct (Hy y F1) as (e1 & o1 & A & B & C & D & D'). rewrite F2 in C. injection C as C1 C2. destruct (Hnum _ _ _ _ Hin A C1) as (<- & <-). auto. }
  assert (Hv3 : forall n g, find_indirect (objects l') n g = value_of real (held items3 n g)).
  { intros n g. rewrite find_objects. destruct (held_cases items3 n g) as [Ho|(-> & Ho)].
    - destruct Ho as (e & A & B & C & D). destruct (Hent _ _ A) as (e0 & o0 & A0 & [(U & E & y & F & S1 & Eo & _)|[(U & E)|(U & E & _)]]).
      + rewrite B, C in F. rewrite F, Eo. symmetry. apply follow_value. exact S1.
      + rewrite E in D. discriminate D.
      + congruence.
    - destruct (find_item l' (n, g)) as [y|] eqn:Ef; [exfalso|reflexivity]. assert (Ef' := Ef). apply find_item_some in Ef. destruct Ef as (F1 & F2). destruct (Hy y F1) as (e & o & A & B & C & _).
      rewrite F2 in C. injection C as -> ->. apply (Ho (Save.follow o (d_value y))). exists e. split; [|auto]. rewrite <- H1. apply in_map_iff. exists (e, o). split; [|exact A].
      unfold after_duplicates. cbn [fst snd]. rewrite B, Ef'. reflexivity. }
  assert (Ht : reshaped (ODict trailer) (ODict trailer3) /\ value_of real (ODict trailer3) = t').
  { assert (G := follow_reshaped real _ _ Hsht). assert (G2 := follow_value real _ _ Hsht). rewrite <- H2. destruct (Save.follow (ODict trailer) t') eqn:Ef; inversion G; subst; try contradiction. cbn [dict_entries]. auto. }
  destruct Ht as (Ht & Htv).
  assert (Hred : forall o v, shaped (value_of real o) v -> says_the_same (objects l) (objects l') (value_of real o) v -> redirected real (held items) (held items3) o (Save.follow o v)).
  { intros o v S1 S2. assert (Ev := follow_value real _ _ S1). split; [eapply follow_reshaped; exact S1|]. split.
    - intros k. apply (similar_resembles real (objects l) (objects l') _ _ Hv Hv3). rewrite Ev. apply S2.
    - intros n g Hmn. apply refs_mentions in Hmn. rewrite <- (value_refs real), Ev in Hmn. destruct (shaped_targets _ _ _ _ S1 S2 n g Hmn) as (n0 & g0 & A & B). rewrite value_refs in A.
      exists n0, g0. split; [apply refs_mentions; exact A|]. intros k. apply (similar_resembles real (objects l) (objects l') _ _ Hv Hv3). exact (B k). }
  split; [exact Hnums|]. split; [|split].
  { intros e o Hin. destruct (Hent e o Hin) as (e0 & o0 & A0 & [(U & E & y & F & S1 & Eo & S2)|[(U & E)|(U & E & E2)]]).
    - left. exists o0. subst e. split; [exact A0|]. right. split; [exact U|]. subst o. apply Hred; assumption.
    - right. eauto.
    - left. exists o0. subst. auto. }
  { intros e o Hin Hu. destruct Hm as (_ & _ & Hm). destruct (Hm (ditem_of real (e, o)) (proj2 (Hl _) (ex_intro _ e (ex_intro _ o (conj Hin (conj Hu eq_refl)))))) as (y & Hyl & S).
    destruct (Hy y Hyl) as (e1 & o1 & A & B & C & D & _). exists e1, (Save.follow o1 (d_value y)). assert (Ef := find_item_in _ _ Hid' Hyl). split; [|split; [exact B|]].
    - rewrite <- H1. apply in_map_iff. exists (e1, o1). split; [|exact A]. unfold after_duplicates. cbn [fst snd]. rewrite B, <- C, Ef. reflexivity.
    - intros k. apply (similar_resembles real (objects l) (objects l') _ _ Hv Hv3). rewrite (follow_value real _ _ D). apply (S k). }
  assert (R := Hred (ODict trailer) t' Hsht (proj1 Hm)). rewrite <- H2. destruct (Save.follow (ODict trailer) t') eqn:Ef; destruct R as (R1 & R2); inversion R1; subst; try contradiction. split; [exact R1|exact R2].
Qed.
Lemma resembles_null : forall real f f' a, resembles real f f' 1 a ONull -> seen_at f a = ONull.
Proof. intros real f f' a H. cbn [resembles seen_at] in H. inversion H as [| | |? ? v T0 T1|? ? N0 N1| | |]; subst; [reflexivity|discriminate T1|destruct N1]. Qed.

Lemma stage_duplicates : forall real hash arrange items trailer items3 trailer3,
  any_arrangement arrange -> psorted items -> plain_entries items -> no_references items -> own_or_steady real hash items ->
  closed_document items (ODict trailer) ->
  merge_equal real hash arrange items trailer = Ok (items3, trailer3) ->
  map (fun p => xnum (fst p)) items3 = map (fun p => xnum (fst p)) items /\
  (forall e o, In (e, o) items3 -> (exists o0, In (e, o0) items /\ (o = o0 \/ reshaped o0 o)) \/ (exists n, e = {| xnum := n; xgen := 0; xdata := KFree 0 |})) /\
  no_references items3 /\ reshaped (ODict trailer) (ODict trailer3) /\
  closed_document items3 (ODict trailer3) /\
  forall k, resembles real (held items) (held items3) k (ODict trailer) (ODict trailer3).
Proof.
  intros real hash arrange items trailer items3 trailer3 Harr Hs Hp Hn Hst Hcl H.
  destruct (duplicates_merged real hash arrange items trailer items3 trailer3 Harr Hs Hn (fun e o A B _ => Hst e o A B) H) as (Hnums & Hent & _ & Rt & Rk & Rm).
  assert (Hs3 : psorted items3) by (unfold psorted; rewrite Hnums; exact Hs).
  split; [exact Hnums|]. split; [|split; [|split; [exact Rt|split; [|exact Rk]]]].
  - intros e o Hin. destruct (Hent e o Hin) as [(o0 & A & [(_ & B)|(_ & B & _)])|(n & ->)]; [left|left|right; eauto]; exists o0; auto.
  - intros e o n g Hin Hu ->. destruct (Hent e _ Hin) as [(o0 & A & [(B & _)|(_ & B & _)])|(n0 & ->)]; [congruence| |discriminate Hu]. inversion B; subst; [contradiction|]. eapply Hn; [exact A|exact Hu|reflexivity].
  - intros n g Hm3 E.
    assert (Hback : exists n0 g0, held items n0 g0 <> ONull /\ resembles real (held items) (held items3) 1 (ORef n0 g0) (ORef n g)).
    { destruct Hm3 as [Hm3|(m & gm & Hm3)].
      - destruct (Rm n g Hm3) as (n0 & g0 & A & B). exists n0, g0. split; [apply Hcl; left; exact A|apply B].
      - destruct (held_cases items3 m gm) as [(e & A & B & C & D)|(E0 & _)]; [|rewrite E0 in Hm3; inversion Hm3].
        destruct (Hent _ _ A) as [(o0 & A0 & [(B0 & _)|(_ & _ & _ & B0)])|(n0 & ->)]; [congruence| |discriminate D].
        destruct (B0 n g Hm3) as (n0 & g0 & A1 & B1). exists n0, g0. split; [|apply B1]. apply Hcl. right. exists m, gm. rewrite (held_holds items m gm o0 Hs); [exact A1|]. exists e. auto. }
    destruct Hback as (n0 & g0 & A & B). apply A. apply (resembles_null real (held items) (held items3) (ORef n0 g0)). cbn [resembles seen_at] in *. rewrite E in B. exact B.
Qed.

(** *** Dropping the free entries *)
Lemma filter_length_le : forall (A : Type) (f : A -> bool) l, (List.length (filter f l) <= List.length l)%nat.
Proof. intros A f. induction l as [|x l IH]; [cbn; lia|]. cbn [filter]. destruct (f x); cbn [List.length]; lia. Qed.
Lemma drop_freed_held : forall l n g, held (drop_freed l) n g = held l n g.
Proof.
  intros [|p l] n g; [reflexivity|]. unfold held, drop_freed. cbn [find]. destruct (is_at n g p); [reflexivity|].
  replace (find (is_at n g) (filter (fun p => entry_in_use (fst p)) l)) with (find (is_at n g) l); [reflexivity|].
  induction l as [|q l IH]; [reflexivity|]. cbn [filter find]. destruct (is_at n g q) eqn:E.
  - assert (E' := E). apply is_at_spec in E'. destruct E' as (_ & _ & ->). cbn [find]. rewrite E. reflexivity.
  - destruct (entry_in_use (fst q)); [cbn [find]; rewrite E|]; exact IH.
Qed.
Lemma drop_freed_sorted : forall l, psorted l -> psorted (drop_freed l).
Proof.
  intros [|p l] H; [exact H|]. destruct (sorted_tail _ _ H) as (H1 & H2). unfold psorted, drop_freed. cbn [map]. constructor; [apply (sorted_filter _ l H1)|].
  rewrite Forall_forall in *. intros n Hn. apply in_map_iff in Hn. destruct Hn as (q & <- & Hq). apply filter_In in Hq. apply H2. apply Hq.
Qed.
Lemma drop_freed_incl : forall l, incl (drop_freed l) l.
Proof. intros [|p l] q H; [exact H|]. destruct H as [H|H]; [left; exact H|right]. apply filter_In in H. apply H. Qed.
Lemma drop_freed_entries : forall p l q, In q (drop_freed (p :: l)) -> q = p \/ entry_in_use (fst q) = true.
Proof. intros p l q [<-|H]; [left; reflexivity|right]. apply filter_In in H. apply H. Qed.
Lemma drop_freed_length : forall l, (List.length (drop_freed l) <= List.length l)%nat.
Proof. intros [|p l]; [cbn; lia|]. cbn [drop_freed List.length]. assert (G := filter_length_le _ (fun p : xentry * obj => entry_in_use (fst p)) l). lia. Qed.

(** *** Closing the gaps between the numbers *)
Definition gap_map (l : list (xentry * obj)) : list (N * N) := moves_from 0 l [].
Definition gap_number (l : list (xentry * obj)) : N -> N -> N := new_number l (gap_map l).
Definition gap_item (l : list (xentry * obj)) (p : xentry * obj) : xentry * obj := (fst (closed_up l p), rename (gap_number l) (snd p)).
Lemma close_gaps_spec : forall l trailer, psorted l ->
  close_gaps l trailer = (map (gap_item l) l, map (fun e => (fst e, rename (gap_number l) (snd e))) trailer).
Proof.
  intros l trailer Hs. unfold close_gaps. assert (Q := squash_single l Hs). unfold squash in Q. cbn [squash_sections] in *.
  change (squash_entries 0 l l []) with (squash_entries 0 l ([] ++ l) []) in *.
  rewrite squash_entries_spec in *; [|exact Hs|rewrite Forall_forall; intros; lia|constructor|exact Hs|rewrite Forall_forall; intros; lia|constructor]. cbn [app map List.concat] in *. injection Q as Q.
  rewrite app_nil_r, Q, map_map. reflexivity.
Qed.
Lemma held_new_number : forall l n g, psorted l -> held l n g <> ONull -> gap_number l n g = rank l n.
Proof.
  intros l n g Hs Hne. unfold gap_number, new_number. change (fun p : xentry * obj => (xnum (fst p) =? n) && (xgen (fst p) =? g) && entry_in_use (fst p)) with (is_at n g).
  unfold held in Hne. destruct (find (is_at n g) l) as [p|] eqn:E; [|congruence].
  assert (Em : mapped (gap_map l) n = rank l n).
  { unfold gap_map. rewrite mapped_moves; [|exact Hs|rewrite Forall_forall; intros; lia]. apply find_some in E. destruct E as (E1 & E2). apply is_at_spec in E2.
    replace (has_number l n) with true. 2: { symmetry. apply existsb_exists. exists p. split; [exact E1|lia]. }
    cbn [mapped]. destruct (n =? 0 + rank l n) eqn:E0; lia. }
  destruct (snd p); try exact Em. congruence.
Qed.
Lemma rank_mono : forall (l : list (xentry * obj)) (p q : xentry * obj), In p l -> xnum (fst p) < xnum (fst q) -> rank l (xnum (fst p)) < rank l (xnum (fst q)).
Proof.
  intros l p q Hp Hlt. unfold rank. induction l as [|x l IH]; [destruct Hp|].
  assert (Hle : forall l : list (xentry * obj), le (List.length (filter (fun x => xnum (fst x) <? xnum (fst p)) l)) (List.length (filter (fun x => xnum (fst x) <? xnum (fst q)) l))).
  { clear - Hlt. induction l as [|x l IH]; [cbn; lia|]. cbn [filter]. destruct (xnum (fst x) <? xnum (fst p)) eqn:E1, (xnum (fst x) <? xnum (fst q)) eqn:E2; cbn [List.length]; lia. }
  cbn [filter]. destruct Hp as [->|Hp].
  - specialize (Hle l). replace (xnum (fst p) <? xnum (fst p)) with false by lia. replace (xnum (fst p) <? xnum (fst q)) with true by lia. cbn [List.length]. lia.
  - specialize (IH Hp). destruct (xnum (fst x) <? xnum (fst p)) eqn:E1, (xnum (fst x) <? xnum (fst q)) eqn:E2; cbn [List.length]; lia.
Qed.
Lemma rank_le : forall (l : list (xentry * obj)) n, rank l n <= N.of_nat (List.length l).
Proof. intros l n. unfold rank. assert (G := filter_length_le _ (fun p : xentry * obj => xnum (fst p) <? n) l). lia. Qed.
Lemma gaps_sorted : forall l, psorted l -> psorted (map (gap_item l) l).
Proof.
  intros l Hs. unfold psorted. rewrite map_map. cbn [gap_item fst closed_up xnum]. assert (G : forall l0, incl l0 l -> psorted l0 -> StronglySorted N.lt (map (fun p => rank l (xnum (fst p))) l0)).
  { induction l0 as [|p l0 IH]; intros Hin H0; [constructor|]. destruct (sorted_tail _ _ H0) as (H1 & H2). cbn [map]. constructor; [apply IH; [intros x Hx; apply Hin; right; exact Hx|exact H1]|].
    rewrite Forall_forall in *. intros n Hn. apply in_map_iff in Hn. destruct Hn as (q & <- & Hq). apply rank_mono; [apply Hin; left; reflexivity|apply H2; exact Hq]. }
  apply G; [apply incl_refl|exact Hs].
Qed.
Lemma gaps_held : forall l n g, psorted l -> held l n g <> ONull -> held (map (gap_item l) l) (rank l n) g = rename (gap_number l) (held l n g).
Proof.
  intros l n g Hs Hne. apply held_not_null in Hne. destruct Hne as (e & A & B & C & D). apply held_holds; [apply gaps_sorted; exact Hs|].
  exists (fst (closed_up l (e, held l n g))). split; [|split; [|split]].
  - apply (in_map (gap_item l)) in A. exact A.
  - cbn [closed_up fst xnum]. rewrite B. reflexivity.
  - exact C.
  - cbn [closed_up fst]. unfold entry_in_use in *. cbn [xdata]. destruct (xdata e); exact D.
Qed.
Lemma agree_rename : forall real (R : obj -> obj -> Prop) f o, (forall n g, o <> ORef n g) ->
  (match o with OArr l => Forall (fun x => R x (rename f x)) l | ODict m | OStream m _ => Forall (fun e => R (snd e) (rename f (snd e))) m | _ => True end) -> agree real R o (rename f o).
Proof.
  intros real R f o Hn H.
  assert (E : forall skip m, Forall (fun e : bytes * obj => R (snd e) (rename f (snd e))) m -> entries_agree skip R m (map (fun e => (fst e, rename f (snd e))) m)).
  { intros skip m Hm. rewrite Forall_forall in Hm. split; intros k v Hin _.
    - exists (rename f v). split; [apply (in_map (fun e => (fst e, rename f (snd e))) m (k, v)); exact Hin|apply (Hm (k, v) Hin)].
    - apply in_map_iff in Hin. destruct Hin as ([k' v0] & E & Hin). cbn [fst snd] in E. injection E as -> <-. exists v0. split; [exact Hin|apply (Hm (k, v0) Hin)]. }
  destruct o as [|b|z|neg m p|nm|v|v|n g|l|m|m d]; cbn [rename]; try (constructor; fail).
  - apply ag_number; [exact I..|apply rst_refl].
  - apply ag_number; [exact I..|apply rst_refl].
  - eapply ag_text; reflexivity.
  - eapply ag_text; reflexivity.
  - exfalso. eapply Hn. reflexivity.
  - apply ag_arr. clear Hn. induction H; cbn [map]; constructor; auto.
  - apply ag_dict. apply E. exact H.
  - apply ag_stream. apply E. exact H.
Qed.
Lemma held_no_reference : forall l, no_references l -> forall n g n' g', held l n g <> ORef n' g'.
Proof. intros l H n g n' g'. destruct (held_cases l n g) as [(e & A & B & C & D)|(-> & _)]; [apply (H e _ n' g' A D)|discriminate]. Qed.
Lemma stage_gaps : forall real l trailer, psorted l -> no_references l -> closed_document l trailer ->
  forall a, (forall n g, mentions n g a -> held l n g <> ONull) -> forall k, resembles real (held l) (held (map (gap_item l) l)) k a (rename (gap_number l) a).
Proof.
  intros real l trailer Hs Hn Hcl a Ha k.
  apply (bisimulation real _ _ (fun a b => b = rename (gap_number l) a /\ forall n g, mentions n g a -> held l n g <> ONull)); [|auto].
  clear a Ha k. intros a b (-> & Ha).
  assert (E : exists o, seen_at (held l) a = o /\ seen_at (held (map (gap_item l) l)) (rename (gap_number l) a) = rename (gap_number l) o /\ (forall n g, o <> ORef n g) /\ forall n g, mentions n g o -> held l n g <> ONull).
  { destruct a; try (eexists; split; [reflexivity|split; [reflexivity|split; [discriminate|exact Ha]]]). eexists. split; [reflexivity|]. assert (H0 := Ha _ _ (Spec.Unreferenced.m_ref num gen)).
    cbn [seen_at rename]. rewrite (held_new_number l num gen Hs H0). split; [apply gaps_held; assumption|]. split; [apply held_no_reference; exact Hn|]. intros n g Hm. apply Hcl. right. eauto. }
  destruct E as (o & -> & -> & H1 & H2). apply agree_rename; [exact H1|].
  destruct o as [|b|z|neg mm p|nm|v|v|n g|l0|m|m d]; try exact I; rewrite Forall_forall; intros x Hx; (split; [reflexivity|]); intros n g Hm; apply H2.
  - eapply Spec.Unreferenced.m_arr; eassumption.
  - destruct x as [kx x]. eapply Spec.Unreferenced.m_dict; eassumption.
  - destruct x as [kx x]. eapply Spec.Unreferenced.m_stream; eassumption.
Qed.
(** the references afterwards *)
Lemma rename_mentions : forall f n g o, mentions n g (rename f o) -> exists n0, mentions n0 g o /\ n = f n0 g.
Proof.
  intros f n g. induction o as [l IH|l IH|l d IH|o Ho] using obj_induction; intros H; cbn [rename] in H.
  - inversion H as [|? o Hin Hm| |]; subst. apply in_map_iff in Hin. destruct Hin as (x & <- & Hx). rewrite Forall_forall in IH. destruct (IH x Hx Hm) as (n0 & A & B). exists n0. split; [eapply Spec.Unreferenced.m_arr; eassumption|exact B].
  - inversion H as [| |? k o Hin Hm|]; subst. apply in_map_iff in Hin. destruct Hin as ([k' x] & E & Hx). cbn [fst snd] in E. injection E as -> <-. rewrite Forall_forall in IH. destruct (IH _ Hx Hm) as (n0 & A & B). exists n0. split; [eapply Spec.Unreferenced.m_dict; eassumption|exact B].
  - inversion H as [| | |? ? k o Hin Hm]; subst. apply in_map_iff in Hin. destruct Hin as ([k' x] & E & Hx). cbn [fst snd] in E. injection E as -> <-. rewrite Forall_forall in IH. destruct (IH _ Hx Hm) as (n0 & A & B). exists n0. split; [eapply Spec.Unreferenced.m_stream; eassumption|exact B].
  - destruct o; try destruct Ho; cbn [rename] in H; inversion H; subst. exists num. split; [apply Spec.Unreferenced.m_ref|reflexivity].
Qed.

(** *** Reading the file *)
Lemma file_resembles : forall real rl file t l, psorted l -> (forall e o, In (e, o) l -> xdata e = KFree 0 \/ exists offset, xdata e = KUsed offset true) -> no_references l ->
  (forall n, entry_for n t <> None <-> exists p, In p l /\ xnum (fst p) = n) ->
  (forall e o, In (e, o) l ->
      match xdata e with
      | KUsed _ _ => exists offset o', entry_for (xnum e) t = Some (RUsed (xnum e) (xgen e) offset) /\
          starts_at file offset (object_heading (xnum e) (xgen e)) /\
          load_entry parser_dictionary rl file {| xnum := xnum e; xgen := xgen e; xdata := KUsed offset true |} = Ok (xnum e, xgen e, o') /\
          same_object o o'
      | _ => entry_for (xnum e) t = Some (RFree (xnum e) (xgen e) 0)
      end) ->
  forall k a, resembles real (held l) (file_store rl file t) k a a.
Proof.
  intros real rl file t l Hs Hp Hn Hhas Hent k a.
  assert (Hsame : forall n g, (held l n g = ONull /\ file_store rl file t n g = ONull) \/ same_object (held l n g) (file_store rl file t n g)).
  { intros n g. destruct (held_cases l n g) as [(e & A & B & C & D)|(E & Hno)].
    - right. specialize (Hent e _ A). destruct (Hp e _ A) as [Ex|(off & Ex)]; [unfold entry_in_use in D; rewrite Ex in D; discriminate D|]. rewrite Ex in Hent. destruct Hent as (offset & o' & F & _ & L & S). rewrite B, C in *.
      unfold file_store. rewrite F, N.eqb_refl, L. exact S.
    - left. split; [exact E|]. unfold file_store. destruct (entry_for n t) as [r|] eqn:Er; [|reflexivity].
      destruct (proj1 (Hhas n) ltac:(congruence)) as ([e o] & Hin & En). cbn [fst] in En. specialize (Hent e o Hin). destruct (Hp e o Hin) as [Ex|(off & Ex)].
      + rewrite Ex, En, Er in Hent. injection Hent as ->. reflexivity.
      + rewrite Ex in Hent. destruct Hent as (offset & o' & F & _). rewrite En in F. rewrite Er in F. injection F as ->. destruct (xgen e =? g) eqn:Eg; [|reflexivity].
        exfalso. apply (Hno o). exists e. split; [exact Hin|]. split; [exact En|]. split; [lia|]. unfold entry_in_use. rewrite Ex. reflexivity. }
  assert (Hself : forall o, (forall n g, o <> ORef n g) -> agree real eq o o).
  { intros o Ho. apply agree_self; [exact Ho|]. destruct o; try exact I; rewrite Forall_forall; reflexivity. }
  apply (bisimulation real _ _ eq); [|reflexivity]. clear a k. intros a b <-. destruct a as [|b|z|neg mm p|nm|v|v|n g|l0|m|m d]; cbn [seen_at]; try (apply Hself; discriminate).
  destruct (Hsame n g) as [(-> & ->)|S]; [apply ag_null|]. assert (Hr := held_no_reference l Hn n g). destruct S as [o _|m m' data H1 H2]; [apply Hself; exact Hr|].
  apply ag_stream. split; intros k v Hin Hk; exists v; (split; [|reflexivity]); apply (H1 k v); try exact Hin; intros ->; apply Hk; left; reflexivity.
Qed.

(** documents in which nothing was deleted *)
Lemma live_mentioned : forall f trailer n g, live f trailer n g -> mentions n g trailer \/ exists m gm, mentions n g (f m gm).
Proof. intros f trailer n g [n0 g0 H|m gm n0 g0 _ H]; [left; exact H|right; exists m, gm; exact H]. Qed.
Lemma undeleted_latest : forall c n g e, Forall plain_section c -> nothing_deleted c -> resolve_entry n g c = Some e -> names_latest c n g.
Proof.
  intros c n g e Hp Hnd E. assert (Hk : kept_number n c).
  { intros newer s older0 e0 s' e' Ec He En Hn Hs' He' En' Hd. subst n. apply (Hnd newer s older0 e0 s' e' Ec He Hn Hs' He'); [congruence|exact Hd]. }
  rewrite (resolve_kept n c Hp Hk) in E. intros newer s older x -> Hx En Hd Hn.
  destruct (find (used_for n) (newest_first (newer ++ s :: older))) as [y|] eqn:Ef; [|discriminate]. destruct (xgen y =? g) eqn:Eg; [|discriminate]. 
  assert (E1 : find (used_for n) (newest_first newer) = None).
  { destruct (find (used_for n) (newest_first newer)) as [z|] eqn:Ez; [exfalso|reflexivity]. apply find_some in Ez. destruct Ez as (Hz & Ez). unfold used_for in Ez. apply andb_prop in Ez. destruct Ez as (Ez & Eu).
    unfold newest_first in Hz. apply in_flat_map in Hz. destruct Hz as (s' & Hs' & Hz). apply in_rev in Hz. rewrite plain_items in Hz by (rewrite Forall_forall in Hp; apply Hp; apply in_or_app; left; exact Hs').
    apply (Hn s' z Hs' Hz); [lia|apply describes_in_use; exact Eu]. }
  unfold newest_first in Ef, E1. rewrite flat_map_app, find_app, E1 in Ef. cbn [flat_map] in Ef. rewrite find_app in Ef.
  assert (Hs : plain_section s) by (rewrite Forall_forall in Hp; apply Hp; apply in_or_app; right; left; reflexivity). rewrite (plain_items s Hs) in Ef.
  destruct (find (used_for n) (rev (s_entries s))) as [z|] eqn:Ez.
  - injection Ef as ->. apply find_some in Ez. destruct Ez as (Hz & Ez). apply in_rev in Hz. unfold used_for in Ez. apply andb_prop in Ez.
    assert (x = y) by (apply (nums_same (s_entries s)); [apply Hs|exact Hx|exact Hz|lia]). subst y. lia.
  - exfalso. apply in_rev in Hx. apply (find_none _ _ Ez) in Hx. unfold used_for in Hx. apply describes_in_use in Hd. rewrite Hd in Hx. lia.
Qed.
Lemma undeleted_orderly : forall real hash content c trailer, let f := document_objects content c in Forall plain_section c -> nothing_deleted c ->
  stores_objects f -> no_loose_reference f trailer -> hashes_steady real hash f -> orderly_document real hash c f trailer.
Proof.
  intros real hash content c trailer f Hp Hnd Hst Hl Hs.
  assert (Hf : forall n g, live f trailer n g -> f n g <> ONull) by (intros n g L; apply Hl; apply live_mentioned; exact L).
  constructor; [exact Hf| |intros n g _; apply Hst|].
  - intros n g L. specialize (Hf n g L). unfold f, document_objects in Hf. destruct (resolve_entry n g c) as [e|] eqn:E; [|congruence]. eapply undeleted_latest; eassumption.
  - intros n g _. destruct (Hs n g) as [H|(m & d & H1 & H2)]; [left; exact H|right]. exists m, d. split; [exact H1|]. intros n' g' m' _. apply H2.
Qed.

(** *** All of it *)
Lemma optimized_all : forall real hash content order arrange newest older items5 trailer5,
  let c := newest :: older in let f := document_objects content c in
  any_order order -> any_arrangement arrange ->
  plain_tables c -> N.of_nat (S (List.length (flat_map s_entries c))) < 2 ^ 63 ->
  writable (ODict (s_trailer newest)) -> sm_find (str "XRefStm") (s_trailer newest) = None ->
  orderly_document real hash c f (ODict (s_trailer newest)) ->
  optimize real hash content order arrange c = Ok (items5, trailer5) ->
  ((List.length items5 <= S (List.length (flat_map s_entries c)))%nat /\
   forall e o, In (e, o) items5 -> entry_in_use e = true -> exists n g, live f (ODict (s_trailer newest)) n g /\ reshaped (f n g) o) /\
  psorted items5 /\ Forall (fun p => entry_saveable (fst p) /\ (used_in_use (fst p) -> storable (snd p))) items5 /\
  writable (ODict trailer5) /\ sm_find (str "Prev") trailer5 = None /\ sm_find (str "XRefStm") trailer5 = None /\
  N.of_nat (List.length items5) < 2 ^ 63 /\ no_references items5 /\
  (forall e o, In (e, o) items5 -> xdata e = KFree 0 \/ exists offset, xdata e = KUsed offset true) /\
  exists T1, writable (ODict T1) /\ (forall k, resembles real f (held items5) k (ODict T1) (ODict trailer5)) /\
    (forall key, all_bytes key -> sm_find key T1 = None -> sm_find key trailer5 = None) /\
    forall key, all_bytes key -> key <> str "Size" -> key <> str "Prev" -> In key trailer_keys -> sm_find key T1 = sm_find key (s_trailer newest).
Proof.
  intros real hash content order arrange newest older items5 trailer5 c f Hord Harr Hpl Hcount Htw Hxs [Hloose Hlat Hst Hsteady] Hopt.
  assert (Ht : Forall table_section c). { rewrite Forall_forall. intros s Hs. exact (proj2 Hpl s Hs). }
  assert (Hp : Forall plain_section c) by (eapply Forall_impl; [exact table_plain|exact Ht]).
  unfold optimize in Hopt. apply rbind_ok in Hopt. destruct Hopt as (c1 & Hm & Hopt). destruct c1 as [|m [|? ?]]; try discriminate Hopt.
  destruct (merged_entries _ _ _ Hm) as (Hxs1 & Hent1 & Hlen1).
  destruct (merged_trailer_agrees newest older m Ht Hm) as (Hkind & Htr).
  change (map (fun e => (e, content e)) (s_entries m)) with (with_content content (s_entries m)) in Hopt.
  set (items1 := with_content content (s_entries m)) in *. set (T1 := s_trailer m) in *.
  assert (Hs1 : psorted items1) by (apply with_content_sorted; exact Hxs1).
  assert (Hh1 : forall n g, live f (ODict (s_trailer newest)) n g -> held items1 n g = f n g) by (intros n g L; apply merged_latest; [exact Hp|exact Hm|apply Hlat; exact L|apply Hloose; exact L]).
  assert (Hpl1 : plain_entries items1).
  { intros e o Hin. apply in_map_iff in Hin. destruct Hin as (e' & E & Hin). injection E as -> _. destruct (Hent1 e Hin) as [->|((s & Hs & He) & Hu)]; [split; [cbn; lia|left; reflexivity]|].
    apply in_rev in Hs. rewrite Forall_forall in Ht. assert (Hsp := Ht s Hs). rewrite (plain_items s (table_plain s Hsp)) in He. destruct Hsp as (_ & _ & _ & Hall). destruct (Hall e He) as (G1 & G2). split; [exact G1|right].
    unfold entry_in_use in Hu. destruct (xdata e) as [nx|off u|st ix]; [discriminate|subst u; eauto|destruct G2]. }
  assert (Hheld : forall e o, In (e, o) items1 -> entry_in_use e = true -> held items1 (xnum e) (xgen e) = o) by (intros e o Hin Hu; apply held_holds; [exact Hs1|exists e; auto]).
  (* the trailer of the merged section *)
  destruct Htr as (Tsort & Tkeys & Tfind).
  assert (Hcnt : N.of_nat (List.length (s_entries newest)) < 2 ^ 63). { unfold c in Hcount. cbn [flat_map] in Hcount. rewrite app_length in Hcount. lia. }
  assert (Tin : forall key x, In (key, x) T1 -> x = OInt (Z.of_nat (List.length (s_entries newest))) \/ In (key, x) (s_trailer newest)).
  { intros key x Hin. assert (Hb : all_bytes key) by (unfold sm_keys_ok in Tkeys; rewrite Forall_forall in Tkeys; apply (Tkeys (key, x) Hin)).
    apply sm_find_in in Hin; [|assumption..]. rewrite Tfind in Hin by exact Hb. destruct (list_eq_dec _ key (str "Prev")); [discriminate|]. destruct (list_eq_dec _ key (str "Size")); [injection Hin as <-; left; reflexivity|].
    destruct (in_dec _ _ _); [right|discriminate]. destruct (writable_parts _ Htw) as (W1 & W2 & _). apply sm_find_in; assumption. }
  assert (Tw : writable (ODict T1)).
  { destruct (writable_parts _ Htw) as (W1 & W2 & W3). apply writable_from; [exact Tsort|exact Tkeys|]. rewrite Forall_forall in *. intros [key x] Hin. cbn [snd]. destruct (Tin key x Hin) as [->|Hin'].
    - split; [apply w_int; lia|discriminate].
    - apply (W3 _ Hin'). }
  assert (HlT : forall n g, mentions n g (ODict T1) -> live f (ODict (s_trailer newest)) n g).
  { intros n g Hmn. apply live_trailer. inversion Hmn as [| |? key x Hin Hmx|]; subst. destruct (Tin key x Hin) as [->|Hin']; [inversion Hmx|]. eapply Spec.Unreferenced.m_dict; eassumption. }
  assert (Hl1 : forall n g, live (held items1) (ODict T1) n g -> live f (ODict (s_trailer newest)) n g).
  { intros n g L. induction L as [n g Hmn|m0 gm n g _ IH Hmn]; [apply HlT; exact Hmn|]. rewrite (Hh1 m0 gm IH) in Hmn. eapply live_step; eassumption. }
  (* unreferenced objects *)
  rewrite Hkind in Hopt. apply rbind_ok in Hopt. destruct Hopt as (c2 & Hun & Hopt).
  destruct (stage_unreferenced order items1 T1 c2 Hs1 Hord Hun) as (items2 & -> & Hs2 & Hin2 & Hlive2 & Hh2). cbn [u_items u_trailer table_of] in Hopt.
  assert (Hl2 : forall e o, In (e, o) items2 -> entry_in_use e = true -> live f (ODict (s_trailer newest)) (xnum e) (xgen e)) by (intros e o Hin Hu; apply Hl1; apply (Hlive2 e o Hin Hu)).
  assert (Hf2 : forall e o, In (e, o) items2 -> entry_in_use e = true -> f (xnum e) (xgen e) = o).
  { intros e o Hin Hu. rewrite <- (Hh1 _ _ (Hl2 e o Hin Hu)). apply Hheld; [apply Hin2; exact Hin|exact Hu]. }
  assert (Hst2 : forall e o, In (e, o) items2 -> entry_in_use e = true -> storable o /\ forall n' g', o <> ORef n' g').
  { intros e o Hin Hu. rewrite <- (Hf2 e o Hin Hu). apply Hst. apply (Hl2 e o Hin Hu). }
  assert (Hpl2 : plain_entries items2) by (intros e o Hin; apply Hpl1 with o; apply Hin2; exact Hin).
  assert (Hn2 : no_references items2) by (intros e o n g Hin Hu; apply (Hst2 e o Hin Hu)).
  assert (Hm2 : forall n g, (mentions n g (ODict T1) \/ exists m gm, mentions n g (held items2 m gm)) -> live f (ODict (s_trailer newest)) n g /\ held items2 n g = f n g).
  { intros n g Hmn. assert (L : live f (ODict (s_trailer newest)) n g).
    { destruct Hmn as [Hmn|(m0 & gm & Hmn)]; [apply HlT; exact Hmn|]. destruct (held_cases items2 m0 gm) as [(e & A & B & C & D)|(E & _)]; [|rewrite E in Hmn; inversion Hmn].
      assert (L := Hl2 e _ A D). assert (Ho := Hf2 e _ A D). rewrite B, C in *. rewrite <- Ho in Hmn. eapply live_step; eassumption. }
    split; [exact L|]. rewrite <- (Hh1 n g L). apply Hh2; [exact Hmn|]. rewrite (Hh1 n g L). apply Hloose. exact L. }
  assert (Hcl2 : closed_document items2 (ODict T1)).
  { intros n g Hmn. destruct (Hm2 n g Hmn) as (L & ->). apply Hloose. exact L. }
  assert (Hown2 : own_or_steady real hash items2).
  { intros e o Hin Hu. assert (Ho := Hf2 e o Hin Hu). destruct (Hsteady (xnum e) (xgen e) (Hl2 e o Hin Hu)) as [S1|(m0 & d & E & S1)]; rewrite Ho in *; [left; exact S1|right].
    exists m0, d. split; [exact E|]. intros e' m' Hin' Hu'. apply (S1 (xnum e') (xgen e') m'); [apply (Hl2 e' _ Hin' Hu')|]. apply (Hf2 e' _ Hin' Hu'). }
  (* equal objects *)
  apply rbind_ok in Hopt. destruct Hopt as ([items3 T3] & Hmg & Hopt).
  destruct (stage_duplicates real hash arrange items2 T1 items3 T3 Harr Hs2 Hpl2 Hn2 Hown2 Hcl2 Hmg) as (Hnums3 & Hent3 & Hn3 & HT3 & Hcl3 & Hres3).
  assert (Hs3 : psorted items3) by (unfold psorted; rewrite Hnums3; exact Hs2).
  (* free entries *)
  set (items4 := drop_freed items3) in *.
  assert (Hs4 : psorted items4) by (apply drop_freed_sorted; exact Hs3).
  assert (Hh4 : forall n g, held items4 n g = held items3 n g) by (intros n g; apply drop_freed_held).
  assert (Hin4 : incl items4 items3) by apply drop_freed_incl.
  assert (Hn4 : no_references items4) by (intros e o n g Hin; apply (Hn3 e o n g (Hin4 _ Hin))).
  assert (Hcl4 : closed_document items4 (ODict T3)).
  { intros n g Hmn. rewrite Hh4. apply Hcl3. destruct Hmn as [Hmn|(m0 & gm & Hmn)]; [left; exact Hmn|right; exists m0, gm; rewrite <- Hh4; exact Hmn]. }
  (* gaps *)
  apply Ok_inj in Hopt. rewrite (close_gaps_spec items4 T3 Hs4) in Hopt. assert (H5 := f_equal fst Hopt). assert (H5' := f_equal snd Hopt). cbn [fst snd] in H5, H5'. clear Hopt. subst items5 trailer5.
  set (items5 := map (gap_item items4) items4) in *. set (T5 := map (fun e => (fst e, rename (gap_number items4) (snd e))) T3) in *.
  assert (Hs5 : psorted items5) by (apply gaps_sorted; exact Hs4).
  assert (Hlen4' : (List.length items4 <= S (List.length (flat_map s_entries c)))%nat).
  { assert (L4 := drop_freed_length items3). fold items4 in L4. assert (L3 : List.length items3 = List.length items2) by (apply (f_equal (@List.length N)) in Hnums3; rewrite !map_length in Hnums3; exact Hnums3).
    assert (L2 : (List.length items2 <= List.length items1)%nat).
    { apply NoDup_incl_length; [|exact Hin2]. apply (NoDup_map_inv (fun p : xentry * obj => xnum (fst p))). apply sorted_nodup. exact Hs2. }
    assert (L1 : List.length items1 = List.length (s_entries m)) by apply map_length.
    assert (L0 : List.length (flat_map section_items (rev c)) = List.length (flat_map s_entries c)).
    { assert (Ef : flat_map section_items c = flat_map s_entries c). { clear - Hp. induction Hp as [|s c Hs Hp IH]; [reflexivity|]. cbn [flat_map]. rewrite IH, (plain_items s Hs). reflexivity. }
      rewrite <- Ef. clear. induction c as [|s c IH]; [reflexivity|]. cbn [rev flat_map]. rewrite flat_map_app, !app_length. cbn [flat_map List.length]. rewrite IH, app_nil_r. lia. }
    lia. }
  assert (Hlen4 : N.of_nat (List.length items4) < 2 ^ 63) by lia.
  assert (Hlen5 : List.length items5 = List.length items4) by apply map_length.
  (* entries of the final section *)
  assert (Hent4 : forall e o, In (e, o) items4 -> xgen e <= 65535 /\ (xdata e = KFree 0 \/ exists offset, xdata e = KUsed offset true)).
  { intros e o Hin. destruct (Hent3 e o (Hin4 _ Hin)) as [(o0 & Hin0 & _)|(n & ->)].
    - destruct (Hpl2 e o0 Hin0) as (G1 & [->|G2]); [split; [exact G1|left; reflexivity]|split; [exact G1|right; exact G2]].
    - split; [cbn; lia|left; reflexivity]. }
  assert (Hsmall : forall o, (forall n g, mentions n g o -> held items4 n g <> ONull) -> small_references (rename (gap_number items4) o)).
  { intros o Ho n g Hmn. apply rename_mentions in Hmn. destruct Hmn as (n0 & Hmn & ->). assert (H0 := Ho n0 g Hmn). rewrite (held_new_number items4 n0 g Hs4 H0). assert (Hr := rank_le items4 n0).
    apply held_not_null in H0. destruct H0 as (e & A & B & C & D). destruct (Hent4 e _ A) as (G & _). split; lia. }
  assert (Hsave5 : Forall (fun p => entry_saveable (fst p) /\ (used_in_use (fst p) -> storable (snd p))) items5).
  { rewrite Forall_forall. intros p Hin. apply in_map_iff in Hin. destruct Hin as ([e o] & <- & Hin). destruct (Hent4 e o Hin) as (G1 & G2). assert (Hr := rank_le items4 (xnum e)).
    cbn [gap_item fst snd closed_up]. split.
    - unfold entry_saveable. cbn [xnum xgen xdata]. split; [lia|]. split; [exact G1|]. destruct G2 as [->|(off & ->)]; [lia|reflexivity].
    - unfold used_in_use. cbn [xdata]. intros Hu. assert (Huse : entry_in_use e = true) by (unfold entry_in_use; destruct G2 as [E|(off & E)]; rewrite E in *; [destruct Hu|reflexivity]).
      destruct (Hent3 e o (Hin4 _ Hin)) as [(o0 & Hin0 & Ho)|(n & ->)]; [|discriminate Huse].
      assert (Hro : reshaped o0 o) by (destruct Ho as [->|Ho]; [apply reshaped_refl|exact Ho]).
      apply (reshaped_storable o0 (rename (gap_number items4) o)); [eapply reshaped_trans; [exact Hro|apply rename_reshaped]|apply (Hst2 e o0 Hin0 Huse)|].
      apply Hsmall. intros n g Hmn. apply Hcl4. right. exists (xnum e), (xgen e). rewrite (held_holds items4 (xnum e) (xgen e) o Hs4); [exact Hmn|]. exists e. auto. }
  assert (HT5 : reshaped (ODict T3) (ODict T5)) by apply (rename_reshaped (gap_number items4) (ODict T3)).
  assert (Tw5 : writable (ODict T5)).
  { apply (reshaped_writable (ODict T1)); [eapply reshaped_trans; [exact HT3|exact HT5]|exact Tw|]. apply (Hsmall (ODict T3)). intros n g Hmn. apply Hcl4. left. exact Hmn. }
  assert (Tkeys5 : map fst T5 = map fst T1).
  { assert (R15 := reshaped_trans _ _ _ HT3 HT5). inversion R15 as [? Fa| | |? ? Fa|]; subst; [destruct Fa|]. symmetry. apply (keys_same reshaped). exact Fa. }
  destruct (writable_parts _ Tw5) as (S5 & K5 & _).
  assert (Tnone : forall key, all_bytes key -> sm_find key T1 = None -> sm_find key T5 = None).
  { intros key Hb E. destruct (sm_find key T5) as [x|] eqn:Ex; [exfalso|reflexivity]. apply sm_find_in in Ex; [|assumption..]. apply (in_map fst) in Ex. rewrite Tkeys5 in Ex. apply in_map_iff in Ex. destruct Ex as ([k y] & Ek & Hy). cbn [fst] in Ek. subst k.
    apply sm_find_in in Hy; [|assumption..]. congruence. }
  assert (Hprev : sm_find (str "Prev") T5 = None).
  { apply Tnone; [apply str_bytes|]. rewrite Tfind by apply str_bytes. destruct (list_eq_dec _ (str "Prev") (str "Prev")); [reflexivity|congruence]. }
  assert (Hxstm : sm_find (str "XRefStm") T5 = None).
  { apply Tnone; [apply str_bytes|]. rewrite Tfind by apply str_bytes. rewrite Hxs. destruct (list_eq_dec _ _ _); [reflexivity|]. destruct (list_eq_dec _ _ _) as [E|_]; [discriminate E|]. destruct (in_dec _ _ _); reflexivity. }
  (* everything looks the same *)
  assert (Hn5 : no_references items5).
  { intros e o n g Hin Hu E. apply in_map_iff in Hin. destruct Hin as ([e0 o0] & Eg & Hin). unfold gap_item in Eg. cbn [fst snd] in Eg. injection Eg as Ee Eo. rewrite E in Eo.
    assert (Hu0 : entry_in_use e0 = true). { rewrite <- Ee in Hu. unfold entry_in_use in *. cbn [closed_up fst xdata] in Hu. destruct (xdata e0); exact Hu. }
    destruct o0; try discriminate Eo. eapply Hn4; [exact Hin|exact Hu0|reflexivity]. }
  assert (Hall : forall k, resembles real f (held items5) k (ODict T1) (ODict T5)).
  { intros k. apply resembles_trans with (f' := held items2) (b := ODict T1).
    { apply same_store; [apply held_no_reference; exact Hn2| |].
      - intros n g m0 gm Hmn. symmetry. apply Hm2. right. eauto.
      - intros n g Hmn. symmetry. apply Hm2. left. exact Hmn. }
    apply resembles_trans with (f' := held items3) (b := ODict T3); [apply Hres3|].
    apply resembles_trans with (f' := held items4) (b := ODict T3).
    { apply same_store; [apply held_no_reference; exact Hn4|intros; symmetry; apply Hh4|intros; symmetry; apply Hh4]. }
    apply (stage_gaps real items4 (ODict T3) Hs4 Hn4 Hcl4 (ODict T3)). intros n g Hmn. apply Hcl4. left. exact Hmn. }
  split.
  { split; [rewrite Hlen5; exact Hlen4'|]. intros e o Hin Hu. apply in_map_iff in Hin. destruct Hin as ([e0 o0] & Eg & Hin). unfold gap_item in Eg. cbn [fst snd] in Eg. injection Eg as Ee Eo.
    assert (Hu0 : entry_in_use e0 = true). { rewrite <- Ee in Hu. unfold entry_in_use in *. cbn [closed_up fst xdata] in Hu. destruct (xdata e0); exact Hu. }
    destruct (Hent3 e0 o0 (Hin4 _ Hin)) as [(o1 & Hin1 & Ho)|(n & ->)]; [|discriminate Hu0].
    exists (xnum e0), (xgen e0). split; [exact (Hl2 e0 o1 Hin1 Hu0)|]. rewrite (Hf2 e0 o1 Hin1 Hu0), <- Eo.
    eapply reshaped_trans; [|apply rename_reshaped]. destruct Ho as [->|Ho]; [apply reshaped_refl|exact Ho]. }
  repeat split; try assumption.
  - rewrite Hlen5. exact Hlen4.
  - intros e o Hin. apply in_map_iff in Hin. destruct Hin as ([e0 o0] & Eg & Hin). unfold gap_item in Eg. cbn [fst snd] in Eg. injection Eg as Ee _. destruct (Hent4 e0 o0 Hin) as (_ & G). rewrite <- Ee. cbn [closed_up fst xdata].
    destruct G as [->|(off & ->)]; [left; reflexivity|right; eauto].
  - exists T1. split; [exact Tw|]. split; [exact Hall|]. split; [exact Tnone|]. intros key Hb Hk1 Hk2 Hk3.
    rewrite Tfind by exact Hb. destruct (list_eq_dec _ _ _); [contradiction|]. destruct (list_eq_dec _ _ _); [contradiction|]. destruct (in_dec _ _ _); [reflexivity|contradiction].
Qed.

Lemma optimized : forall real hash content order arrange newest older items5 trailer5,
  let c := newest :: older in let f := document_objects content c in
  any_order order -> any_arrangement arrange ->
  plain_tables c -> N.of_nat (S (List.length (flat_map s_entries c))) < 2 ^ 63 ->
  writable (ODict (s_trailer newest)) -> sm_find (str "XRefStm") (s_trailer newest) = None ->
  orderly_document real hash c f (ODict (s_trailer newest)) ->
  optimize real hash content order arrange c = Ok (items5, trailer5) ->
  psorted items5 /\ Forall (fun p => entry_saveable (fst p) /\ (used_in_use (fst p) -> storable (snd p))) items5 /\
  writable (ODict trailer5) /\ sm_find (str "Prev") trailer5 = None /\ sm_find (str "XRefStm") trailer5 = None /\
  N.of_nat (List.length items5) < 2 ^ 63 /\ no_references items5 /\
  (forall e o, In (e, o) items5 -> xdata e = KFree 0 \/ exists offset, xdata e = KUsed offset true) /\
  exists T1, writable (ODict T1) /\ (forall k, resembles real f (held items5) k (ODict T1) (ODict trailer5)) /\
    (forall key, all_bytes key -> sm_find key T1 = None -> sm_find key trailer5 = None) /\
    forall key, all_bytes key -> key <> str "Size" -> key <> str "Prev" -> In key trailer_keys -> sm_find key T1 = sm_find key (s_trailer newest).
Proof.
  intros real hash content order arrange newest older items5 trailer5 c f Hord Harr Hpl Hcount Htw Hxs Hod Hopt.
  exact (proj2 (optimized_all real hash content order arrange newest older items5 trailer5 Hord Harr Hpl Hcount Htw Hxs Hod Hopt)).
Qed.

Theorem default_save : forall real hash content order arrange rl v newest older file,
  let c := newest :: older in let f := document_objects content c in
  any_order order -> any_arrangement arrange ->
  plain_tables c -> N.of_nat (S (List.length (flat_map s_entries c))) < 2 ^ 63 ->
  writable (ODict (s_trailer newest)) -> sm_find (str "XRefStm") (s_trailer newest) = None ->
  orderly_document real hash c f (ODict (s_trailer newest)) ->
  save_file real hash content order arrange v c = Ok file -> (Z.of_nat (List.length file) < 2 ^ 63)%Z ->
  exists t trailer', open_file parser_dictionary rl file = Ok (v, t, ODict trailer') /\
    forall key, In key [str "Root"; str "Info"; str "ID"] ->
      match sm_find key (s_trailer newest), sm_find key trailer' with
      | Some a, Some b => same_document real f (file_store rl file t) a b
      | None, None => True
      | _, _ => False
      end.
Proof.
  intros real hash content order arrange rl v newest older file c f Hord Harr Hpl Hcount Htw Hxs Hod Hsave Hlen.
  unfold save_file in Hsave. apply rbind_ok in Hsave. destruct Hsave as ([items5 T5] & Hopt & Hwrite).
  destruct (optimized real hash content order arrange newest older items5 T5 Hord Harr Hpl Hcount Htw Hxs Hod Hopt) as (Hs5 & Hsave5 & Tw5 & Hprev & Hxstm & Hlen5 & Hn5 & Hpl5 & T1 & Tw & Hheld & Tnone & Tkeep).
  destruct (Verif.Props.FileWrite.C21_written_file_reopens rl v items5 T5 file Hs5 Hsave5 Tw5 Hprev Hxstm Hwrite Hlen Hlen5) as (t & Hopen & Hhas & Hents).
  exists t. eexists. split; [exact Hopen|].
  assert (Hall : forall k, resembles real f (file_store rl file t) k (ODict T1) (ODict T5)).
  { intros k. apply resembles_trans with (f' := held items5) (b := ODict T5); [apply Hheld|]. apply file_resembles; assumption. }
  destruct (writable_parts _ Tw) as (Tsort & Tkeys & _). destruct (writable_parts _ Tw5) as (S5 & K5 & _).
  intros key Hkey. assert (Hb : all_bytes key) by (destruct Hkey as [<-|[<-|[<-|[]]]]; apply str_bytes).
  assert (Hk1 : key <> str "Size" /\ key <> str "Prev" /\ In key trailer_keys).
  { destruct Hkey as [<-|[<-|[<-|[]]]]; (split; [discriminate|]); (split; [discriminate|]); vm_compute; tauto. }
  destruct Hk1 as (Hk1 & Hk2 & Hk3).
  assert (E1 : sm_find key T1 = sm_find key (s_trailer newest)).
  { apply Tkeep; assumption. }
  assert (E5 : sm_find key (set_size T5 (N.of_nat (List.length items5))) = sm_find key T5).
  { unfold set_size. rewrite find_set by first [apply str_bytes|assumption]. destruct (list_eq_dec N.eq_dec key (str "Size")); [contradiction|reflexivity]. }
  rewrite E5, <- E1. destruct (sm_find key T1) as [a|] eqn:Ea.
  - apply sm_find_in in Ea; [|assumption..].
    assert (Hb5 : forall k, exists b, sm_find key T5 = Some b /\ resembles real f (file_store rl file t) k a b).
    { intros k. assert (A := Hall (S k)). cbn [resembles seen_at] in A. inversion A as [| | |? ? v0 T0 _|? ? N0 _ _| |? ? (D1 & _)|]; subst; [discriminate T0|destruct N0|]. destruct (D1 key a Ea ltac:(intros [])) as (b & Hin & R). exists b. split; [apply sm_find_in; assumption|exact R]. }
    destruct (Hb5 O) as (b & Eb & _). rewrite Eb. intros k. destruct (Hb5 k) as (b' & Eb' & R). rewrite Eb in Eb'. injection Eb' as <-. exact R.
  - rewrite (Tnone key Hb Ea). exact I.
Qed.

Theorem undeleted_save : forall real hash content order arrange rl v newest older file,
  let c := newest :: older in let f := document_objects content c in
  any_order order -> any_arrangement arrange ->
  plain_tables c -> nothing_deleted c -> N.of_nat (S (List.length (flat_map s_entries c))) < 2 ^ 63 ->
  writable (ODict (s_trailer newest)) -> sm_find (str "XRefStm") (s_trailer newest) = None ->
  stores_objects f -> no_loose_reference f (ODict (s_trailer newest)) -> hashes_steady real hash f ->
  save_file real hash content order arrange v c = Ok file -> (Z.of_nat (List.length file) < 2 ^ 63)%Z ->
  exists t trailer', open_file parser_dictionary rl file = Ok (v, t, ODict trailer') /\
    forall key, In key [str "Root"; str "Info"; str "ID"] ->
      match sm_find key (s_trailer newest), sm_find key trailer' with
      | Some a, Some b => same_document real f (file_store rl file t) a b
      | None, None => True
      | _, _ => False
      end.
Proof.
  intros real hash content order arrange rl v newest older file c f Hord Harr Hpl Hnd Hcount Htw Hxs Hst Hloose Hsteady Hsave Hlen.
  assert (Hp : Forall plain_section c) by (rewrite Forall_forall; intros s Hs; apply table_plain; exact (proj2 Hpl s Hs)).
  apply (default_save real hash content order arrange rl v newest older file Hord Harr Hpl Hcount Htw Hxs); [|exact Hsave|exact Hlen]. apply undeleted_orderly; assumption.
Qed.

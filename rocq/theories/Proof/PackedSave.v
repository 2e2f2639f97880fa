(** Lemmas for C99: what the standard finds in a file that the library saved whole. *)
From Coq Require Import List NArith ZArith Bool Lia String Sorted.
From Coq Require Import List.
From Verif.Model Require Import Base SMap Object Xref Chain Merge StreamFile.
From Verif.Spec Require Import Strings Grammar Xref FileWrite Chain Unreferenced Save StreamFile Conforming Compressed WrittenStream PackedSave.
From Verif.Proof Require Import Tac FileWrite.
From Verif.Props Require Import WrittenStream.
Import ListNotations.
Local Open Scope N_scope.

Lemma one_item : forall (l : list (xentry * obj)) p q, NoDup (map (fun p => xnum (fst p)) l) -> In p l -> In q l -> xnum (fst p) = xnum (fst q) -> p = q.
Proof.
  induction l as [|a l IH]; intros p q Hd Hp Hq E; [destruct Hp|]. cbn [map] in Hd. inversion Hd as [|? ? Hn Hd']; subst. destruct Hp as [<-|Hp], Hq as [<-|Hq].
  - reflexivity.
  - exfalso. apply Hn. rewrite E. apply in_map_iff. exists q. auto.
  - exfalso. apply Hn. rewrite <- E. apply in_map_iff. exists p. auto.
  - apply IH; assumption.
Qed.
Lemma strictly_nodup : forall l, StronglySorted N.lt l -> NoDup l.
Proof. intros l H. induction H as [|a l H IH F]; constructor; [|exact IH]. intros X. rewrite Forall_forall in F. specialize (F _ X). lia. Qed.

(** *** Objects for all the references of a file *)
Lemma choose_objects : forall (P : N -> N -> obj -> Prop) (l : list (xentry * obj)), (forall e o, In (e, o) l -> exists x, P (xnum e) (xgen e) x) ->
  exists start : store, (forall n g, (forall e o, In (e, o) l -> (xnum e, xgen e) <> (n, g)) -> start n g = ONull) /\
    forall e o, In (e, o) l -> P (xnum e) (xgen e) (start (xnum e) (xgen e)).
Proof.
  intros P. induction l as [|[e o] l IH]; intros H.
  - exists (fun _ _ => ONull). split; [reflexivity|intros ? ? []].
  - destruct IH as (start & A & B); [intros e' o' Hin; apply (H e' o'); right; exact Hin|]. destruct (H e o) as (x & Hx); [left; reflexivity|].
    exists (fun n g => if (n =? xnum e) && (g =? xgen e) then x else start n g). split.
    + intros n g Hn. destruct ((n =? xnum e) && (g =? xgen e)) eqn:E; [|apply A; intros e' o' Hin; apply (Hn e' o'); right; exact Hin].
      exfalso. apply (Hn e o); [left; reflexivity|]. f_equal; lia.
    + intros e' o' Hin. destruct ((xnum e' =? xnum e) && (xgen e' =? xgen e)) eqn:E.
      * assert (E1 : xnum e' = xnum e) by lia. assert (E2 : xgen e' = xgen e) by lia. rewrite E1, E2. exact Hx.
      * destruct Hin as [X|Hin]; [|apply (B e' o'); exact Hin]. exfalso. apply pair_equal_spec in X. destruct X as [<- _]. rewrite !N.eqb_refl in E. discriminate E.
Qed.
Lemma all_meanings : forall supported decode file revs self hdr l, document supported self hdr l -> means_entries decode file revs self l ->
  exists start : store, (forall n g, (n, g) <> self -> means decode file revs n g (start n g)) /\
    forall start' : store, (forall n g, (n, g) <> self -> start' n g = start n g) -> reopened_objects self l (start' (fst self) (snd self)) start'.
Proof.
  intros supported decode file revs self hdr l D (M1 & M2 & M3 & M4).
  assert (Hd := strictly_nodup _ (dc_sorted _ _ _ _ D)). destruct (dc_self _ _ _ _ D) as (os & offs & Hs).
  set (P := fun n g x => (n, g) <> self -> means decode file revs n g x /\
    (forall e o, In (e, o) l -> xnum e = n -> xgen e = g ->
      match xdata e with KFree _ => x = ONull | KComp _ _ => x = o | KUsed _ _ => ~ is_object_stream l n -> same_object o x end) /\
    (is_object_stream l n -> g = 0 -> exists m d m' d', StreamFile.in_use l n 0 (OStream m d) /\ x = OStream m' d' /\
      forall k, all_bytes k -> ~ In k [str "Length"; str "N"; str "First"] -> sm_find k m' = sm_find k m)).
  assert (Hstm : forall k, is_object_stream l k -> k <> fst self /\ exists m d, StreamFile.in_use l k 0 (OStream m d)).
  { intros k (e & o & i & Hin & Ed). destruct (dc_entries _ _ _ _ D e o Hin) as (_ & _ & He). rewrite Ed in He. destruct He as (_ & _ & _ & Hk & m & d & Hu & _). split; [exact Hk|eauto]. }
  assert (Hdec : forall k, is_object_stream l k \/ ~ is_object_stream l k).
  { intros k. destruct (existsb (fun p => match xdata (fst p) with KComp k' _ => k' =? k | _ => false end) l) eqn:E.
    - left. apply existsb_exists in E. destruct E as ([e o] & Hin & E). cbn [fst] in E. destruct (xdata e) as [|q u|k' i] eqn:Ed; try discriminate E. assert (k' = k) by lia. subst k'. exists e, o, i. auto.
    - right. intros (e & o & i & Hin & Ed). assert (X : existsb (fun p => match xdata (fst p) with KComp k' _ => k' =? k | _ => false end) l = true); [|congruence].
      apply existsb_exists. exists (e, o). split; [exact Hin|]. cbn [fst]. rewrite Ed. apply N.eqb_refl. }
  destruct (choose_objects P l) as (start & A & B).
  { intros e o Hin.
    assert (Hsame : forall e' o', In (e', o') l -> xnum e' = xnum e -> (e', o') = (e, o)) by (intros e' o' H' E; apply (one_item l); auto).
    destruct (N.eq_dec (xnum e) (fst self)) as [En|En].
    - exists ONull. intros Hne. exfalso. apply Hne. assert (X : (e, o) = ({| xnum := fst self; xgen := snd self; xdata := KUsed offs true |}, os)) by (apply (one_item l); auto).
      apply pair_equal_spec in X. destruct X as [-> _]. destruct self; reflexivity.
    - assert (Hne : (xnum e, xgen e) <> self) by (intros X; apply En; rewrite <- X; reflexivity). assert (M := M2 e o Hin Hne). destruct (dc_entries _ _ _ _ D e o Hin) as (_ & _ & He).
      destruct (xdata e) as [next|q u|k i] eqn:Ed.
      + exists ONull. intros _. split; [apply M|]. split.
        * intros e' o' H' E1 E2. apply Hsame in H'; [|exact E1]. apply pair_equal_spec in H'. destruct H' as [-> ->]. rewrite Ed. reflexivity.
        * intros Hk Hg. destruct (Hstm _ Hk) as (_ & m & d & off & Hu). apply Hsame in Hu; [|reflexivity]. apply (f_equal (fun p => xdata (fst p))) in Hu. cbn [fst xdata] in Hu. congruence.
      + destruct M as (Ma & Mb). destruct (Hdec (xnum e)) as [Hk|Hk].
        * destruct (M3 _ Hk) as (m & d & m' & d' & Q1 & Q2 & Q3). exists (OStream m' d'). intros _.
          assert (Hg : xgen e = 0). { destruct Q1 as (off & Q1). apply Hsame in Q1; [|reflexivity]. apply (f_equal (fun p => xgen (fst p))) in Q1. cbn [fst xgen] in Q1. congruence. }
          rewrite Hg. split; [exact Q2|]. split.
          -- intros e' o' H' E1 E2. apply Hsame in H'; [|exact E1]. apply pair_equal_spec in H'. destruct H' as [-> ->]. rewrite Ed. intros X. contradiction.
          -- intros _ _. exists m, d, m', d'. auto.
        * destruct (Ma Hk) as (x & X1 & X2). exists x. intros _. split; [exact X1|]. split; [|intros X; contradiction].
          intros e' o' H' E1 E2. apply Hsame in H'; [|exact E1]. apply pair_equal_spec in H'. destruct H' as [-> ->]. rewrite Ed. intros _. exact X2.
      + destruct He as (Hg & _). destruct M as (Ma & Mb). exists o. intros _. rewrite Hg. split; [exact Ma|]. split.
        * intros e' o' H' E1 E2. apply Hsame in H'; [|exact E1]. apply pair_equal_spec in H'. destruct H' as [-> ->]. rewrite Ed. reflexivity.
        * intros Hk _. destruct (Hstm _ Hk) as (_ & m & d & off & Hu). apply Hsame in Hu; [|reflexivity]. apply (f_equal (fun p => xdata (fst p))) in Hu. cbn [fst xdata] in Hu. congruence. }
  exists start. split.
  - intros n g Hne. destruct (find (fun p => xnum (fst p) =? n) l) as [[e o]|] eqn:Ef.
    + apply find_some in Ef. destruct Ef as [Hin En]. cbn [fst] in En. assert (xnum e = n) by lia. subst n. destruct (N.eq_dec (xgen e) g) as [<-|Hg]; [apply (B e o Hin); exact Hne|].
      rewrite (A (xnum e) g).
      2:{ intros e' o' H' X. apply Hg. assert (Y : (e', o') = (e, o)) by (apply (one_item l); auto; cbn [fst]; congruence). apply pair_equal_spec in Y. destruct Y as [-> _]. congruence. }
      destruct (N.eq_dec (xnum e) (fst self)) as [En'|En'].
      * rewrite En'. apply M4. intros X. apply Hne. rewrite En', X. destruct self; reflexivity.
      * assert (Hne' : (xnum e, xgen e) <> self) by (intros X; apply En'; rewrite <- X; reflexivity). assert (M := M2 e o Hin Hne'). destruct (dc_entries _ _ _ _ D e o Hin) as (_ & _ & He).
        destruct (xdata e) as [next|q u|k i]; [apply M|apply M; congruence|apply M; destruct He; congruence].
    + assert (Hn : forall e o, In (e, o) l -> xnum e <> n) by (intros e o Hin X; apply (find_none _ _ Ef) in Hin; cbn [fst] in Hin; lia).
      rewrite (A n g); [apply M1; exact Hn|]. intros e o Hin X. apply (Hn e o Hin). congruence.
  - intros start' Hst. split; [|split; [reflexivity|split]].
    + intros n g H. rewrite Hst; [apply A; exact H|]. intros X. apply (H _ _ Hs). cbn [xnum xgen]. rewrite X. destruct self; reflexivity.
    + intros e o Hin Hne. rewrite Hst by exact Hne. destruct (B e o Hin Hne) as (_ & B2 & _). specialize (B2 e o Hin eq_refl eq_refl). destruct (xdata e); exact B2.
    + intros k Hk. destruct (Hstm k Hk) as (Hks & m & d & off & Hu). assert (Hne : (k, 0) <> self) by (intros X; apply Hks; rewrite <- X; reflexivity).
      rewrite (Hst k 0 Hne). destruct (B _ _ Hu Hne) as (_ & _ & B3). exact (B3 Hk eq_refl).
Qed.

(** *** The places of the objects *)
Lemma packed_places : forall c self f trailer items, NoDup (map (fun p => xnum (fst p)) items) -> packed_as_before c self f trailer items -> in_place c f trailer ->
  (forall n k i, packed_at c n k i -> needed c self f trailer n 0 -> shown f trailer n 0) -> indexes_are_places items.
Proof.
  intros c self f trailer items Hd (number & kept & Hinj & Hfrom & Hto) Hp Hall k'.
  destruct (find (fun p => match xdata (fst p) with KComp s _ => s =? k' | _ => false end) items) as [[e0 o0]|] eqn:Ef.
  - apply find_some in Ef. destruct Ef as [Hin0 E0]. cbn [fst] in E0. destruct (xdata e0) as [|q u|s i0] eqn:Ed0; try discriminate E0. assert (s = k') by lia. subst s.
    destruct (Hfrom _ _ _ _ Hin0 Ed0) as (n0 & k & Hp0 & _ & Hk & _ & -> & _). destruct (Hp k) as (members & Hm).
    set (look := fun n => match find (fun p => xnum (fst p) =? number n) items with Some p => p | None => ({| xnum := 0; xgen := 0; xdata := KFree 0 |}, ONull) end).
    assert (Hlook : forall p n, In p items -> xnum (fst p) = number n -> look n = p).
    { intros p n Hin E. unfold look. destruct (find (fun q => xnum (fst q) =? number n) items) as [q|] eqn:Eq.
      - apply find_some in Eq. destruct Eq as [Q1 Q2]. apply (one_item items); auto. lia.
      - apply (find_none _ _ Eq) in Hin. lia. }
    exists (map look members). intros e o i. split.
    + intros [Hin Ed]. destruct (Hfrom _ _ _ _ Hin Ed) as (n & k2 & Hpn & _ & Hk2 & En & Ek & Hnd). apply (Hinj _ _ Hk Hk2) in Ek. subst k2.
      assert (Hpn' := conj Hpn (Hall _ _ _ Hpn Hnd)). clear Hpn. rename Hpn' into Hpn. apply Hm in Hpn. rewrite nth_error_map, Hpn. cbn [option_map]. rewrite (Hlook (e, o) n Hin En). reflexivity.
    + intros H. rewrite nth_error_map in H. destruct (nth_error members (N.to_nat i)) as [n|] eqn:En; [|discriminate H]. cbn [option_map] in H.
      apply Hm in En. destruct (Hto n k i (proj1 En) (proj2 En)) as (_ & _ & e5 & o5 & Hin & E5 & Ed5). rewrite (Hlook (e5, o5) n Hin E5) in H.
      assert (X : (e5, o5) = (e, o)) by congruence. apply pair_equal_spec in X. destruct X as [<- <-]. auto.
  - exists []. intros e o i. split.
    + intros [Hin Ed]. apply (find_none _ _ Ef) in Hin. cbn [fst] in Hin. rewrite Ed, N.eqb_refl in Hin. discriminate Hin.
    + intros H. destruct (N.to_nat i); discriminate H.
Qed.
Lemma few_members : forall c self f trailer items number (kept : N -> Prop) k present, NoDup (map (fun p => xnum (fst p)) items) ->
  (forall a b, kept a -> kept b -> number a = number b -> a = b) -> kept k ->
  (forall e o k' i, In (e, o) items -> xdata e = KComp k' i -> exists n k, packed_at c n k i /\ kept n /\ kept k /\
       xnum e = number n /\ k' = number k /\ needed c self f trailer n 0) ->
  (forall n i, packed_at c n k i -> needed c self f trailer n 0 -> In n present) ->
  members_count items (number k) <= N.of_nat (List.length present).
Proof.
  intros c self f trailer items number kept k present Hd Hinj Hk Hfrom Hpres. unfold members_count.
  set (mine := filter (fun p => match xdata (fst p) with KComp s _ => s =? number k | _ => false end) items).
  assert (H : (List.length (map (fun p => xnum (fst p)) mine) <= List.length (map number present))%nat).
  { apply NoDup_incl_length.
    - clear - Hd. subst mine. induction items as [|p items IH]; [constructor|]. cbn [map] in Hd. inversion Hd as [|? ? Hn Hd']; subst. cbn [filter]. destruct (match xdata (fst p) with KComp s _ => s =? number k | _ => false end); [|apply IH, Hd'].
      cbn [map]. constructor; [|apply IH, Hd']. intros X. apply Hn. apply in_map_iff in X. destruct X as (q & E & Hq). apply filter_In in Hq. apply in_map_iff. exists q. split; [exact E|apply Hq].
    - intros x Hx. apply in_map_iff in Hx. destruct Hx as ([e o] & <- & Hin). apply filter_In in Hin. destruct Hin as [Hin E]. cbn [fst] in *. destruct (xdata e) as [|q u|s i] eqn:Ed; try discriminate E.
      destruct (Hfrom _ _ _ _ Hin Ed) as (n & k2 & Hpn & _ & Hk2 & En & Ek & Hr). assert (Es : number k = number k2) by lia. apply (Hinj _ _ Hk Hk2) in Es. subst k2.
      rewrite En. apply in_map. apply (Hpres n i); assumption. }
  rewrite !map_length in H. lia.
Qed.

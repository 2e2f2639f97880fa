(** Lemmas for C101. *)
From Coq Require Import List NArith ZArith Bool Lia String Sorted FinFun.
From Coq Require Import List.
From Verif.Model Require Import Base Numbers SMap Object Equality Token Xref Header FileWrite Chain Merge Update Watermark MarkedSave.
From Verif.Spec Require Import Strings Grammar FileWrite Chain Update StreamFile Watermark Written MarkedSave.
From Verif.Proof Require Import Tac Strings StreamObj SMap FileWrite Chain Update Watermark.
Import ListNotations.
Local Open Scope N_scope.

Lemma writable_tidy : forall o, writable o -> tidy o.
Proof.
  fix IH 1. intros o. destruct o as [|b|z|neg m p|n|v|v|num gen|l|l|l data]; intros H; try (apply tidy_other; discriminate).
  assert (A : forall k v, In (k, v) l -> writable v -> tidy v).
  { clear H. induction l as [|[k v] l I]; intros k0 v0 Hin W; [destruct Hin|]. destruct Hin as [E|Hin]; [|exact (I k0 v0 Hin W)].
    exact (eq_ind v (fun x => writable x -> tidy x) (IH v) v0 (f_equal snd E) W). }
  constructor. intros m E. assert (E' : l = m) by congruence. clear E. destruct E'. destruct (writable_parts l H) as (W1 & W2 & W3). split; [exact W1|]. split; [exact W2|].
  intros k v Hin. apply (A k v Hin). rewrite Forall_forall in W3. exact (proj1 (W3 _ Hin)).
Qed.
Lemma storable_tidy : forall o, storable o -> tidy o.
Proof. intros o [o' W|m data _ _ _]; [apply writable_tidy; exact W|apply tidy_other; discriminate]. Qed.

Lemma grown_writable : forall n g, n < 2 ^ 63 -> g <= 65535 -> forall k a b, writable a -> tidy b -> grown (ORef n g) k a b -> writable b.
Proof.
  intros n g Hn Hg. induction k as [|k IH]; intros a b Wa Tb [<-|G]; try exact Wa; [destruct G|].
  destruct a as [| | | | | | | | |m|]; try destruct G. destruct b as [| | | | | | | | |m'|]; try destruct G.
  destruct (writable_parts _ Wa) as (W1 & W2 & W3). destruct (tidy_dict _ Tb) as (T1 & T2 & T3). rewrite Forall_forall in W3.
  apply writable_from; [exact T1|exact T2|]. rewrite Forall_forall. intros [key v'] Hin. cbn [snd].
  assert (Hk : all_bytes key) by (unfold sm_keys_ok in T2; rewrite Forall_forall in T2; exact (T2 _ Hin)).
  assert (Tv := T3 _ _ Hin). specialize (G key Hk). assert (Hf := Hin). apply sm_find_in in Hf; [|assumption..]. rewrite Hf in G.
  destruct (sm_find key m) as [v|] eqn:E.
  - apply sm_find_in in E; [|assumption..]. destruct (W3 _ E) as (Wv & Nv). cbn [snd] in Wv, Nv. split; [exact (IH v v' Wv Tv G)|]. intros ->.
    destruct v; try (apply (grown_other _ _ _ _) in G; [congruence|discriminate]). destruct (grown_dict _ _ _ _ G) as (x & X). discriminate X.
  - destruct G as [(_ & ->)|(_ & G)]; [split; [constructor; assumption|discriminate]|].
    split; [apply (IH (ODict []) v'); [apply writable_from; [constructor|constructor|constructor]|exact Tv|exact G]|].
    intros ->. destruct (grown_dict _ _ _ _ G) as (x & X). discriminate X.
Qed.

Lemma object_found : forall items e o off, NoDup (map (fun p => xnum (fst p)) items) -> In (e, o) items -> xdata e = KUsed off true ->
  item_object items (xnum e) (xgen e) = o.
Proof.
  intros items e o off N Hin Hd. unfold item_object.
  set (t := fun p : xentry * obj => match xdata (fst p) with KUsed _ true => (xnum (fst p) =? xnum e) && (xgen (fst p) =? xgen e) | _ => false end).
  destruct (find t items) as [p|] eqn:E.
  - apply find_some in E. destruct E as (Hp & Et). unfold t in Et.
    assert (Ex : xnum (fst p) = xnum e).
    { destruct (xdata (fst p)) as [|o' u|]; try discriminate Et. destruct u; [|discriminate Et]. apply andb_true_iff in Et. apply N.eqb_eq. apply Et. }
    clear - N Hin Hp Ex. induction items as [|q items IH]; [destruct Hin|]. cbn [map] in N. inversion N as [|? ? N1 N2]; subst.
    destruct Hin as [->|Hin], Hp as [<-|Hp].
    + reflexivity.
    + exfalso. apply N1. cbn [fst]. rewrite <- Ex. apply (in_map (fun p => xnum (fst p)) _ _ Hp).
    + exfalso. apply N1. rewrite Ex. apply (in_map (fun p => xnum (fst p)) _ (e, o) Hin).
    + apply IH; assumption.
  - assert (X := find_none t items E _ Hin). unfold t in X. cbn [fst] in X. rewrite Hd, !N.eqb_refl in X. discriminate X.
Qed.
Lemma object_listed : forall items n g, item_object items n g <> ONull -> exists e off, In (e, item_object items n g) items /\ xdata e = KUsed off true /\ xnum e = n /\ xgen e = g.
Proof.
  intros items n g H. unfold item_object in *.
  destruct (find _ items) as [[e o]|] eqn:E; [|congruence]. apply find_some in E. destruct E as (Hp & Et). cbn [fst snd] in *.
  destruct (xdata e) as [|off u|] eqn:Ed; try discriminate Et. destruct u; [|discriminate Et]. apply andb_true_iff in Et. destruct Et as (E1 & E2).
  apply N.eqb_eq in E1, E2. exists e, off. repeat split; assumption.
Qed.

Lemma mark_items_in : forall decode encode d d' l l', mark_items decode encode d d' l = Ok l' -> Forall2 (fun p q => mark_item decode encode d d' p = Ok q) l l'.
Proof.
  intros decode encode d d'. induction l as [|p l IH]; intros l' H; cbn [mark_items] in H; [apply okay in H; subst; constructor|].
  apply rbind_ok in H. destruct H as (q & E & H). apply rbind_ok in H. destruct H as (s & Es & H). apply okay in H. subst l'. constructor; [exact E|apply IH; exact Es].
Qed.
Lemma mark_item_entry : forall decode encode d d' p q, mark_item decode encode d d' p = Ok q -> fst q = fst p.
Proof.
  intros decode encode d d' [e o] q H. unfold mark_item in H. cbn [fst snd] in *. destruct (entry_in_use e); [|apply okay in H; subst; reflexivity].
  destruct o; try (apply okay in H; subst; reflexivity). destruct (bytes_eqb _ _); [apply okay in H; subst; reflexivity|].
  apply rbind_ok in H. destruct H as (b & _ & H). apply rbind_ok in H. destruct H as (x & _ & H). apply okay in H. subst. reflexivity.
Qed.
Lemma forall2_in : forall (A B : Type) (R : A -> B -> Prop) l l', Forall2 R l l' -> forall x, In x l -> exists y, In y l' /\ R x y.
Proof.
  intros A B R l l' H. induction H as [|a b l l' r H IH]; intros x Hx; [destruct Hx|]. destruct Hx as [<-|Hx]; [exists b; split; [left; reflexivity|exact r]|].
  destruct (IH x Hx) as (y & I & Y). exists y. split; [right; exact I|exact Y].
Qed.
Lemma forall2_back : forall (A B : Type) (R : A -> B -> Prop) l l', Forall2 R l l' -> forall y, In y l' -> exists x, In x l /\ R x y.
Proof.
  intros A B R l l' H. induction H as [|a b l l' r H IH]; intros x Hx; [destruct Hx|]. destruct Hx as [<-|Hx]; [exists a; split; [left; reflexivity|exact r]|].
  destruct (IH x Hx) as (y & I & Y). exists y. split; [right; exact I|exact Y].
Qed.
Lemma forall2_map : forall (A B C : Type) (f : A -> C) (g : B -> C) l l', Forall2 (fun a b => g b = f a) l l' -> map g l' = map f l.
Proof. intros A B C f g l l' H. induction H as [|a b l l' E H IH]; [reflexivity|]. cbn [map]. rewrite E, IH. reflexivity. Qed.

Lemma allocated : forall items fuel i c, allocate_from fuel 0 [table_of items] = Ok (i, c) -> first_unlisted items i.
Proof.
  intros items fuel i c H. apply allocate_from_ok in H. destruct H as (_ & H1 & H2 & _).
  assert (P : forall k, present k [table_of items] <-> listed items k).
  { intros k. rewrite <- contains_present. cbn [existsb]. rewrite orb_false_r, sec_contains_lists. unfold lists, table_of, listed. cbn [s_entries s_hybrid]. split.
    - intros (e & He & En). assert (Hin : In e (map fst items)) by (destruct He as [He|(_ & h & X & _)]; [exact He|discriminate X]).
      apply in_map_iff in Hin. destruct Hin as (p & <- & Hp). exists p. split; assumption.
    - intros (p & Hp & En). exists (fst p). split; [left; apply in_map; exact Hp|exact En]. }
  split; [rewrite <- P; exact H1|]. intros k Hk. apply P, H2. lia.
Qed.
Lemma first_small : forall items i, first_unlisted items i -> i <= N.of_nat (List.length items).
Proof.
  intros items i (_ & H).
  assert (L : (List.length (map N.of_nat (seq 0 (N.to_nat i))) <= List.length (map (fun p : xentry * obj => xnum (fst p)) items))%nat).
  { apply NoDup_incl_length.
    - apply Injective_map_NoDup; [intros a b E; lia|apply seq_NoDup].
    - intros k Hk. apply in_map_iff in Hk. destruct Hk as (j & <- & Hj). apply in_seq in Hj. destruct (H (N.of_nat j) ltac:(lia)) as (p & Hp & En).
      rewrite <- En. apply (in_map (fun p : xentry * obj => xnum (fst p)) _ _ Hp). }
  rewrite !map_length, seq_length in L. lia.
Qed.

Lemma helvetica_writable : writable helvetica.
Proof.
  apply writable_from.
  - repeat constructor.
  - repeat constructor; apply str_bytes.
  - repeat constructor; try apply str_bytes; discriminate.
Qed.
Lemma root_kids_more : forall f f' trailer kids, (forall n g, f n g <> ONull -> f' n g = f n g) -> root_kids f trailer kids -> root_kids f' trailer kids.
Proof.
  intros f f' trailer kids M (r & root & p & pages & k & H1 & H2 & H3 & H4 & H5 & H6). exists r, root, p, pages, k.
  assert (A : forall v o, o <> ONull -> (v = o \/ exists n g, v = ORef n g /\ f n g = o) -> v = o \/ exists n g, v = ORef n g /\ f' n g = o).
  { intros v o Ho [E|(n & g & E & X)]; [left; exact E|]. right. exists n, g. split; [exact E|]. rewrite M; [exact X|congruence]. }
  repeat split; [exact H1|apply A; [discriminate|exact H2]|exact H3|apply A; [discriminate|exact H4]|exact H5|apply A; [discriminate|exact H6]].
Qed.
Lemma root_kids_has : forall d trailer kids, root_kids (d_objects d) trailer kids -> has_kids d trailer = true.
Proof.
  intros d trailer kids (r & root & p & pages & k & H1 & H2 & H3 & H4 & H5 & _). unfold has_kids. rewrite H1.
  assert (E : target d r = ODict root) by (destruct H2 as [->|(n & g & -> & E)]; [reflexivity|exact E]). rewrite E, H3.
  assert (E' : target d p = ODict pages) by (destruct H4 as [->|(n & g & -> & X)]; [reflexivity|exact X]). rewrite E'. unfold sm_contains. rewrite H5. reflexivity.
Qed.

Lemma target_is : forall d v m, is_or_refers (d_objects d) v (ODict m) -> target d v = ODict m.
Proof. intros d v m [->|(n & g & -> & E)]; [reflexivity|exact E]. Qed.
Lemma target_not : forall d v, no_dictionary (d_objects d) v -> forall m, target d v <> ODict m.
Proof. intros d v H m E. apply (H m). destruct v; try discriminate E; first [left; exact E|right; do 2 eexists; split; [reflexivity|exact E]]. Qed.
Lemma pageless_has : forall real text image fuel d trailer, pageless (d_objects d) trailer ->
  has_kids d trailer = false /\ apply_watermark real (0, 0) text image fuel d trailer = Ok d.
Proof.
  intros real text image fuel d trailer H. unfold has_kids, apply_watermark. destruct H as [->|(r & root & E1 & E2 & H)]; [split; reflexivity|].
  rewrite E1, (target_is _ _ _ E2). destruct H as [->|(p & pages & E3 & E4 & E5)]; [split; reflexivity|]. rewrite E3, (target_is _ _ _ E4). unfold sm_contains. rewrite E5. split; reflexivity.
Qed.
Lemma malformed_has : forall real text image fuel d trailer, malformed (d_objects d) trailer ->
  has_kids d trailer = false /\ apply_watermark real (0, 0) text image fuel d trailer = Throw EConversion.
Proof.
  intros real text image fuel d trailer (r & E1 & H). unfold has_kids, apply_watermark. rewrite E1. destruct H as [H|(root & p & E2 & E3 & H)].
  - assert (N := target_not d r H). destruct (target d r); try (split; reflexivity). exfalso. eapply N. reflexivity.
  - rewrite (target_is _ _ _ E2), E3. assert (N := target_not d p H). destruct (target d p); try (split; reflexivity). exfalso. eapply N. reflexivity.
Qed.

Lemma equal_bytes : forall a b, bytes_eqb a b = true <-> a = b.
Proof.
  induction a as [|x a IH]; intros [|y b]; cbn [bytes_eqb]; try (split; [discriminate|discriminate]); [tauto|].
  rewrite andb_true_iff, N.eqb_eq, IH. split; [intros (-> & ->); reflexivity|intros E; injection E; auto].
Qed.

Lemma sorted_distinct : forall l : list N, StronglySorted N.lt l -> NoDup l.
Proof. intros l H. induction H as [|a l H IH F]; constructor; [|exact IH]. intros X. rewrite Forall_forall in F. specialize (F _ X). lia. Qed.

(** *** It succeeds *)
Lemma listed_present : forall items k, present k [table_of items] <-> listed items k.
Proof.
  intros items k. rewrite <- contains_present. cbn [existsb]. rewrite orb_false_r, sec_contains_lists. unfold lists, table_of, listed. cbn [s_entries s_hybrid]. split.
  - intros (e & He & En). assert (Hin : In e (map fst items)) by (destruct He as [He|(_ & h & X & _)]; [exact He|discriminate X]).
    apply in_map_iff in Hin. destruct Hin as (p & <- & Hp). exists p. split; assumption.
  - intros (p & Hp & En). exists (fst p). split; [left; apply in_map; exact Hp|exact En].
Qed.
Lemma allocation : forall items n, first_unlisted items n -> N.of_nat (S (List.length items)) < 2 ^ 63 ->
  exists c, allocate_from (S (List.length items)) 0 [table_of items] = Ok (n, c).
Proof.
  intros items n Hf Hl. assert (Hn := first_small _ _ Hf). destruct (allocate_from_other (S (List.length items)) 0 [table_of items]) as (A & B & C).
  assert (Hno : ~ present n [table_of items]) by (rewrite listed_present; apply Hf). assert (M : 2 ^ 63 < max_u64) by reflexivity.
  destruct (allocate_from (S (List.length items)) 0 [table_of items]) as [[i c]|e| |] eqn:E.
  - apply allocated in E. assert (i = n); [|subst i; exists c; reflexivity]. destruct E as [E1 E2], Hf as [F1 F2].
    destruct (N.lt_total i n) as [L|[L|L]]; [exfalso; apply E1, F2, L|exact L|exfalso; apply F1, E2, L].
  - destruct (B e eq_refl) as (_ & B'). exfalso. apply Hno, B'. lia.
  - destruct (C eq_refl) as (C' & _). discriminate C'.
  - destruct (A eq_refl) as (_ & A'). exfalso. apply Hno, A'. lia.
Qed.
Lemma sorted_members : forall l l' : list (xentry * obj), StronglySorted N.lt (map (fun p => xnum (fst p)) l) -> StronglySorted N.lt (map (fun p => xnum (fst p)) l') ->
  (forall p, In p l <-> In p l') -> l = l'.
Proof.
  assert (G : forall (x : xentry * obj) (l : list (xentry * obj)), Forall (N.lt (xnum (fst x))) (map (fun p => xnum (fst p)) l) -> forall y, In y l -> xnum (fst x) < xnum (fst y)).
  { intros x l F y Hy. rewrite Forall_forall in F. apply F. apply (in_map (fun p : xentry * obj => xnum (fst p)) _ _ Hy). }
  induction l as [|x l IH]; intros l' Hs Hs' H.
  - destruct l' as [|y l']; [reflexivity|]. exfalso. apply (H y). left. reflexivity.
  - destruct l' as [|y l']; [exfalso; apply (H x); left; reflexivity|]. cbn [map] in Hs, Hs'. inversion Hs as [|? ? S1 F1]; subst. inversion Hs' as [|? ? S2 F2]; subst.
    assert (E : x = y).
    { destruct (proj1 (H x) (or_introl eq_refl)) as [E|Hx]; [symmetry; exact E|]. destruct (proj2 (H y) (or_introl eq_refl)) as [E|Hy]; [exact E|].
      assert (A := G x l F1 y Hy). assert (B := G y l' F2 x Hx). lia. }
    subst y. f_equal. apply IH; [exact S1|exact S2|]. intros p. split; intros Hp.
    + destruct (proj1 (H p) (or_intror Hp)) as [<-|Hp']; [|exact Hp']. assert (A := G x l F1 x Hp). lia.
    + destruct (proj2 (H p) (or_intror Hp)) as [<-|Hp']; [|exact Hp']. assert (A := G x l' F2 x Hp). lia.
Qed.
Lemma mark_items_or : forall decode encode d d' l, (exists l', mark_items decode encode d d' l = Ok l') \/ exists p, In p l /\ forall q, mark_item decode encode d d' p <> Ok q.
Proof.
  intros decode encode d d'. induction l as [|p l IH]; [left; eexists; reflexivity|]. cbn [mark_items].
  destruct (mark_item decode encode d d' p) as [q| | |] eqn:E; [|right; exists p; (split; [left; reflexivity|]); intros q; rewrite E; discriminate..].
  cbn [rbind]. destruct IH as [(l' & ->)|(p' & Hp & H)]; [left; eexists; reflexivity|]. right. exists p'. split; [right; exact Hp|exact H].
Qed.

Section Marked.
Variables (supported : header -> Prop) (encode decode : header -> bytes -> res bytes).
Hypothesis Hcodec : codec supported encode decode.
Variables (real : bool -> N -> N -> dbl) (text image : bytes) (items : list (xentry * obj)) (trailer : list (bytes * obj)) (i : N) (fuel : nat) (d2 : doc) (items2 : list (xentry * obj)).
Hypothesis Hs : section_saveable (items, trailer).
Hypothesis Hlen : N.of_nat (S (List.length items)) < 2 ^ 63.
Hypothesis Hfirst : first_unlisted items i.
Let items1 := padd (new_entry i, helvetica) items.
Let d1 := document_of decode items1.
Hypothesis Hsup : forall e off m data, In (e, OStream m data) items -> xdata e = KUsed off true -> supported m.
Hypothesis Happly : apply_watermark real (i, 0) text image fuel d1 trailer = Ok d2.
Hypothesis Hmark : mark_items decode encode d1 d2 items1 = Ok items2.

Lemma number_small : i < 2 ^ 63.
Proof. assert (H := first_small _ _ Hfirst). lia. Qed.
Lemma items1_in : forall p, In p items1 <-> p = (new_entry i, helvetica) \/ In p items.
Proof.
  intros p. split; [apply padd_in|]. intros [->|H]; [apply padd_has|]. apply padd_keeps; [exact H|]. intros E. apply (proj1 Hfirst). exists p. split; [exact H|exact E].
Qed.
Lemma items1_sorted : StronglySorted N.lt (map (fun p => xnum (fst p)) items1).
Proof. apply padd_sorted. exact (proj1 Hs). Qed.
Lemma items1_good : forall p, In p items1 -> entry_saveable (fst p) /\ (forall off, xdata (fst p) = KUsed off true -> storable (snd p)).
Proof.
  intros p H. apply items1_in in H. destruct H as [->|H].
  - cbn [fst snd]. split; [|intros _ _; apply st_direct, helvetica_writable]. assert (X := number_small). unfold entry_saveable, new_entry. cbn [xnum xgen xdata]. split; [exact X|]. split; [lia|reflexivity].
  - destruct Hs as (_ & F & _). rewrite Forall_forall in F. exact (F p H).
Qed.
Lemma items1_tidy : forall n g, tidy (d_objects d1 n g).
Proof.
  intros n g. unfold d1, document_of. cbn [d_objects]. destruct (item_object items1 n g) eqn:E; try (apply tidy_other; discriminate).
  assert (X : item_object items1 n g <> ONull) by congruence. destruct (object_listed _ _ _ X) as (e & off & Hin & Hd & _). rewrite E in Hin.
  apply storable_tidy. exact (proj2 (items1_good _ Hin) off Hd).
Qed.
Lemma used_in_use : forall e off, xdata e = KUsed off true -> entry_in_use e = true.
Proof. intros e off H. unfold entry_in_use. rewrite H. reflexivity. Qed.
Lemma in_use_used : forall p, In p items1 -> entry_in_use (fst p) = true -> exists off, xdata (fst p) = KUsed off true.
Proof.
  intros p H U. destruct (items1_good p H) as ((_ & _ & G) & _). unfold entry_in_use in U. destruct (xdata (fst p)) as [|off u|]; [discriminate U|subst u; exists off; reflexivity|destruct G].
Qed.
(** what becomes of an entry in use *)
Lemma item_marked : forall e o off q, In (e, o) items1 -> xdata e = KUsed off true -> mark_item decode encode d1 d2 (e, o) = Ok q ->
  match o with
  | OStream m data => exists x, q = (e, OStream m x) /\
      (d_bodies d1 (xnum e) (xgen e) = d_bodies d2 (xnum e) (xgen e) /\ x = data \/
       d_bodies d1 (xnum e) (xgen e) <> d_bodies d2 (xnum e) (xgen e) /\ decode m data = Ok (d_bodies d1 (xnum e) (xgen e)) /\ encode m (d_bodies d2 (xnum e) (xgen e)) = Ok x)
  | _ => exists o2, q = (e, o2) /\ grown (ORef i 0) 3 o o2 /\ tidy o2
  end.
Proof.
  intros e o off q Hin Hd H. assert (Eo : item_object items1 (xnum e) (xgen e) = o) by (eapply object_found; [apply sorted_distinct, items1_sorted|exact Hin|exact Hd]).
  unfold mark_item in H. cbn [fst snd] in H. rewrite (used_in_use _ _ Hd) in H.
  assert (St := apply_steady real (i, 0) text image fuel d1 trailer d2 items1_tidy Happly).
  assert (G : grown (ORef i 0) 3 o (d_objects d2 (xnum e) (xgen e)) /\ tidy (d_objects d2 (xnum e) (xgen e))).
  { split; [|apply St]. assert (X := proj1 St (xnum e) (xgen e)). unfold d1, document_of in X. cbn [d_objects fst snd] in X. rewrite Eo in X. exact X. }
  destruct o; try (apply okay in H; subst q; eexists; split; [reflexivity|exact G]).
  destruct (bytes_eqb (d_bodies d1 (xnum e) (xgen e)) (d_bodies d2 (xnum e) (xgen e))) eqn:B.
  - apply okay in H. subst q. eexists. split; [reflexivity|]. left. split; [|reflexivity]. apply equal_bytes. exact B.
  - apply rbind_ok in H. destruct H as (b & Eb & H). apply rbind_ok in H. destruct H as (x & Ex & H). apply okay in H. subst q. exists x. split; [reflexivity|]. right.
    assert (Ebody : d_bodies d1 (xnum e) (xgen e) = b) by (unfold d1, document_of; cbn [d_bodies]; fold items1; rewrite Eo, Eb; reflexivity).
    split; [|split; [rewrite Ebody; exact Eb|exact Ex]].
    intros E. rewrite E in B. rewrite (proj2 (equal_bytes _ _) eq_refl) in B. discriminate B.
Qed.

Lemma marked_saveable : section_saveable (items2, trailer).
Proof.
  assert (F := mark_items_in _ _ _ _ _ _ Hmark).
  assert (En : map (fun p : xentry * obj => xnum (fst p)) items2 = map (fun p => xnum (fst p)) items1).
  { apply forall2_map. clear - F. induction F as [|p q l l' E F IH]; constructor; [|exact IH]. rewrite (mark_item_entry _ _ _ _ _ _ E). reflexivity. }
  destruct Hs as (_ & _ & H3 & H4 & _). split; [cbn [fst]; rewrite En; apply items1_sorted|]. split; [|split; [exact H3|split; [exact H4|]]].
  - cbn [fst]. rewrite Forall_forall. intros q Hq. destruct (forall2_back _ _ _ _ _ F q Hq) as ([e o] & Hp & Eq). assert (Ee := mark_item_entry _ _ _ _ _ _ Eq). cbn [fst] in Ee. rewrite Ee.
    destruct (items1_good _ Hp) as (G1 & G2). cbn [fst snd] in G1, G2. split; [exact G1|]. intros off Hd. assert (M := item_marked e o off q Hp Hd Eq). specialize (G2 off Hd).
    assert (D : forall o2, q = (e, o2) /\ grown (ORef i 0) 3 o o2 /\ tidy o2 -> writable o -> storable (snd q)).
    { intros o2 (-> & Gr & T) W. apply st_direct. exact (grown_writable i 0 number_small ltac:(lia) 3 o o2 W T Gr). }
    destruct o; try (destruct M as (o2 & M); apply (D o2 M); inversion G2; assumption).
    destruct M as (x & -> & [(_ & ->)|(_ & _ & Ex)]); [exact G2|]. cbn [snd]. inversion G2 as [? W|? ? W HL _]; subst; [inversion W|]. apply st_stream; [exact W|exact HL|exact (cd_size _ _ _ Hcodec _ _ _ Ex)].
  - cbn [fst]. rewrite <- (map_length (fun p : xentry * obj => xnum (fst p)) items2), En, map_length. assert (L := padd_length (new_entry i, helvetica) items). fold items1 in L. lia.
Qed.
Lemma marked_links : short_links (items, trailer) -> short_links (items2, trailer).
Proof.
  intros H e o next Hin Hd. cbn [fst] in *. destruct (forall2_back _ _ _ _ _ (mark_items_in _ _ _ _ _ _ Hmark) _ Hin) as ([e0 o0] & Hp & Eq). assert (Ee := mark_item_entry _ _ _ _ _ _ Eq). cbn [fst] in Ee. subst e0.
  apply items1_in in Hp. destruct Hp as [Hp|Hp]; [|exact (H e o0 next Hp Hd)]. apply (f_equal fst) in Hp. cbn [fst] in Hp. subst e. discriminate Hd.
Qed.
End Marked.

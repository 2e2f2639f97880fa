(** C85: string destinations of appended documents. *)
From Coq Require Import List NArith ZArith Bool String Lia.
From Coq Require Import List.
From Verif.Model Require Import Base SMap Object Containers Tree StringDests.
From Verif.Spec Require Import Containers Tree StringDests.
From Verif.Proof Require Import Tac SMap Containers Tree StringDests.
Import ListNotations.
Local Open Scope N_scope.

Section C85.
Variable objects : N -> option obj.             (* the source's objects *)
Variable alloc : list (N * obj) -> res N.       (* numbers of new objects of the target *)
Let append := merge_pages objects alloc.

(** Proved: a source without string destinations leaves those of the target alone. *)
Theorem C85_none : forall h root pages tg, name_entries h root [] ->
  (exists F, forall fuel, (F <= fuel)%nat -> append fuel pages (Some (h, root)) tg = (tg, Ok tt)) /\
  forall fuel, append fuel pages None tg = (tg, Ok tt).
Proof.
  intros h root pages tg H. split.
  - destruct (source_map h root [] H (NoDup_nil _)) as [F HF]. exists F. intros fuel Hf. destruct (HF fuel Hf) as (t & E & Hin & _).
    assert (Em : t_map t = []). { destruct (t_map t) as [|[k v] m]; [reflexivity|]. destruct (proj1 (Hin k v) (or_introl eq_refl)). }
    unfold append. induction pages as [|[p new] pages IH]; [reflexivity|]. cbn [merge_pages merge_page]. rewrite E, Em. cbn [merge_strings]. exact IH.
  - intros fuel. unfold append. induction pages as [|[p new] pages IH]; [reflexivity|]. cbn [merge_pages merge_page]. exact IH.
Qed.

(** Proved: the only string destination of a source, if it is an object of its own and the target's name tree is one array without
    Limits, leads to the copy of its page afterwards, with everything else about it kept, and those of the target are kept. *)
Theorem C85_one_partial : forall h root k n x p d new pages tg ds,
  name_entries h root [(k, ORef n 0)] -> objects n = Some x -> destination p x -> objects p = Some (ODict d) ->
  In (p, new) pages -> NoDup (map fst pages) ->
  flat tg -> string_destinations tg ds -> NoDup (map fst ds) -> ~ In k (map fst ds) -> (forall l, exists c, alloc l = Ok c) ->
  exists F, forall fuel, (F <= fuel)%nat -> exists tg' ds' c x', append fuel pages (Some (h, root)) tg = (tg', Ok tt) /\ string_destinations tg' ds' /\
    (forall k2 v2, In (k2, v2) ds' <-> (k2, v2) = (k, ORef c 0) \/ In (k2, v2) ds) /\ NoDup (map fst ds') /\
    d_copies tg' = d_copies tg ++ [(c, x')] /\ moved new x x'.
Proof.
  intros h root k n x p d new pages tg ds Hs Hn Hk Hp Hin Hnp Hfl Hds Hnd Hkd Hal.
  assert (Hone : NoDup (map fst [(k, ORef n 0)])) by (constructor; [intros []|constructor]).
  destruct (source_map h root _ Hs Hone) as [F HF]. exists (Nat.max F 2). intros fuel Hf. destruct (HF fuel) as (t & E & Hmap & Hmn); [lia|].
  destruct fuel as [|[|f]]; [lia|lia|]. pose proof (name_bytes _ _ _ Hs) as Hb. apply Forall_cons_iff in Hb as [Hb _]. cbn [fst] in Hb.
  assert (Ho : indirect_destination objects (ORef n 0) p) by (exists n, x, d; repeat split; assumption).
  assert (Hg : all_good objects (t_map t)).
  { intros k2 o2 H2. apply Hmap in H2 as [X|[]]. apply pair_equal_spec in X as [<- <-]. split; [exact Hb|exists p; exact Ho]. }
  assert (Hother : forall q m tg0, (q, m) <> (p, new) -> In (q, m) pages -> merge_strings objects alloc (S (S f)) q m (t_map t) tg0 = (tg0, Ok tt)).
  { intros q m tg0 Hne Hq. apply (merge_none objects alloc); [exact Hg|]. intros k2 o2 H2 Ho2. apply Hmap in H2 as [X|[]]. apply pair_equal_spec in X as [<- <-].
    assert (p = q) by now apply (dest_unique objects (ORef n 0)). subst q. apply Hne. f_equal.
    clear - Hin Hq Hnp. induction pages as [|[a b] pages IH]; [destruct Hin|]. cbn [map fst] in Hnp. apply NoDup_cons_iff in Hnp as [H1 H2].
    destruct Hin as [X|Hin], Hq as [Y|Hq]; [congruence| | |now apply IH].
    - apply pair_equal_spec in X as [-> _]. destruct H1. apply in_map_iff. now exists (p, m).
    - apply pair_equal_spec in Y as [-> _]. destruct H1. apply in_map_iff. now exists (p, new). }
  destruct (in_split _ _ Hin) as (before & after & ->).
  assert (Hskip : forall rest tg0, (forall q m, In (q, m) rest -> (q, m) <> (p, new) /\ In (q, m) (before ++ (p, new) :: after)) -> forall tail,
    append (S (S f)) (rest ++ tail) (Some (h, root)) tg0 = append (S (S f)) tail (Some (h, root)) tg0).
  { induction rest as [|[q m] rest IH]; intros tg0 Hr tail; [reflexivity|]. unfold append in *. cbn [app merge_pages merge_page]. rewrite E.
    rewrite Hother; [|apply (Hr q m); now left..]. apply IH. intros q2 m2 H2. apply Hr. now right. }
  rewrite map_app in Hnp. cbn [map fst] in Hnp. apply NoDup_remove in Hnp as [_ Hnp].
  rewrite (Hskip before). 2: { intros q m Hq. split; [|apply in_or_app; now left]. intros X. apply pair_equal_spec in X as [-> ->]. apply Hnp. apply in_or_app. left. apply in_map_iff. now exists (p, new). }
  unfold append. cbn [merge_pages merge_page]. rewrite E.
  destruct (merge_open objects alloc Hal f p new (t_map t) tg ds) as [(Hno & _)|[(k2 & o2 & c & tg' & ds' & H1 & _ & _ & _ & Em & Hc & Hi & Hcp)|(tg' & Em & _)]].
  - split; [exact Hfl|split; [exact Hds|exact Hnd]].
  - exact Hg.
  - exact Hmn.
  - intros k2 o2 H2 _. apply Hmap in H2 as [X|[]]. apply pair_equal_spec in X as [<- _]. exact Hkd.
  - destruct (Hno k (ORef n 0)); [apply Hmap; now left|exact Ho].
  - rewrite Em. apply Hmap in H1 as [X|[]]. apply pair_equal_spec in X as [<- <-]. exists tg', ds', c, (fix_page new x). split.
    + pose proof (Hskip after tg') as X. rewrite <- (app_nil_r after). unfold append in X. rewrite X; [reflexivity|].
      intros q m Hq. split; [|apply in_or_app; right; now right]. intros Y. apply pair_equal_spec in Y as [-> ->]. apply Hnp. apply in_or_app. right. apply in_map_iff. now exists (p, new).
    + destruct Hc as (_ & Hc & Hcn). split; [exact Hc|]. split; [|split; [exact Hcn|]].
      * intros k2 v2. rewrite Hi. cbn [In]. split; (intros [X|X]; [left; now symmetry|now right]).
      * rewrite Hcp. cbn [resolve snd]. rewrite Hn. split; [reflexivity|]. now apply (page_moved p).
  - exfalso. assert (Hlen : t_map t = [(k, ORef n 0)]).
    { destruct (t_map t) as [|[k1 v1] [|[k2 v2] m]] eqn:Et.
      - now destruct (proj2 (Hmap k (ORef n 0)) (or_introl eq_refl)).
      - destruct (proj1 (Hmap k1 v1) (or_introl eq_refl)) as [X|[]]. now rewrite X.
      - destruct (proj1 (Hmap k1 v1) (or_introl eq_refl)) as [X|[]]. destruct (proj1 (Hmap k2 v2) (or_intror (or_introl eq_refl))) as [Y|[]].
        apply pair_equal_spec in X as [<- _]. apply pair_equal_spec in Y as [<- _]. cbn [map fst] in Hmn. apply NoDup_cons_iff in Hmn as [Hm _]. destruct Hm. now left. }
    rewrite Hlen in Em. cbn [merge_strings] in Em. rewrite (asks_indirect objects _ p p Ho), N.eqb_refl in Em.
    destruct (Hal (d_copies tg)) as (c & Ec).
    destruct (append_open objects alloc f new k (ORef n 0) p tg ds c) as (tg1 & ds1 & E1 & _); [split; [exact Hfl|split; assumption]|exact Ho|exact Hb|exact Hkd|exact Ec|].
    rewrite E1 in Em. discriminate.
Qed.

(** Refuted: a source with two string destinations cannot be appended, and no string destination is left in the target, not even the
    target's own. *)
Theorem C85_two_refuted : forall h root es k1 o1 p1 k2 o2 p2 pages tg ds,
  name_entries h root es -> NoDup (map fst es) -> (forall k o, In (k, o) es -> exists p, indirect_destination objects o p) ->
  In (k1, o1) es -> indirect_destination objects o1 p1 -> In p1 (map fst pages) ->
  In (k2, o2) es -> indirect_destination objects o2 p2 -> In p2 (map fst pages) -> k1 <> k2 -> NoDup (map fst pages) ->
  flat tg -> string_destinations tg ds -> NoDup (map fst ds) -> (forall k, In k (map fst es) -> ~ In k (map fst ds)) -> (forall l, exists c, alloc l = Ok c) ->
  exists F, forall fuel, (F <= fuel)%nat -> exists tg', append fuel pages (Some (h, root)) tg = (tg', Throw EDuplicateKey) /\ string_destinations tg' [].
Proof.
  intros h root es k1 o1 p1 k2 o2 p2 pages tg ds Hs Hnes Hgood H1 Ho1 Hp1 H2 Ho2 Hp2 Hk Hnp Hfl Hds Hnd Hdis Hal.
  destruct (source_map h root es Hs Hnes) as [F HF]. exists (Nat.max F 2). intros fuel Hf. destruct (HF fuel) as (t & E & Hmap & Hmn); [lia|].
  destruct fuel as [|[|f]]; [lia|lia|].
  assert (Hg : all_good objects (t_map t)).
  { intros k o H. apply Hmap in H. split; [|now apply (Hgood k)]. pose proof (name_bytes _ _ _ Hs) as Hb. rewrite Forall_forall in Hb. exact (Hb _ H). }
  apply Hmap in H1. apply Hmap in H2.
  assert (Hdis' : forall k o, In (k, o) (t_map t) -> ~ In k (map fst ds)).
  { intros k o H. apply Hdis. apply in_map_iff. exists (k, o). split; [reflexivity|]. now apply Hmap. }
  induction pages as [|[p new] pages IH]; [destruct Hp1|]. cbn [map fst] in Hnp. apply NoDup_cons_iff in Hnp as [Hnp1 Hnp2]. unfold append in *. cbn [merge_pages merge_page]. rewrite E.
  destruct (merge_open objects alloc Hal f p new (t_map t) tg ds) as [(Hno & Em)|[(k & o & c & tg' & ds' & Hi & Ho & Hu & _ & Em & Hc & Hin & _)|(tg' & Em & He)]].
  - split; [exact Hfl|split; [exact Hds|exact Hnd]].
  - exact Hg.
  - exact Hmn.
  - intros k o H _. now apply (Hdis' k o).
  - rewrite Em. apply IH; [| |exact Hnp2]; cbn [map fst] in *.
    + destruct Hp1 as [X|X]; [|exact X]. subst p1. now destruct (Hno k1 o1).
    + destruct Hp2 as [X|X]; [|exact X]. subst p2. now destruct (Hno k2 o2).
  - rewrite Em. apply (merge_pages_closed objects alloc Hal f h root pages t tg' ds' E Hc Hg).
    + intros p0 k0 o0 Hp0 H0 Ho0 Hx. apply in_map_iff in Hx as ([k3 v3] & <- & Hx). apply Hin in Hx. cbn [fst] in *. destruct Hx as [X|Hx].
      * apply pair_equal_spec in X as [<- _]. assert (o = o0).
        { clear - Hmn Hi H0. induction (t_map t) as [|[a b] m IHm]; [destruct Hi|]. cbn [map fst] in Hmn. apply NoDup_cons_iff in Hmn as [Ha Hb].
          destruct Hi as [X|Hi], H0 as [Y|H0]; [congruence| | |now apply IHm].
          - apply pair_equal_spec in X as [-> _]. destruct Ha. apply in_map_iff. now exists (k, o0).
          - apply pair_equal_spec in Y as [-> _]. destruct Ha. apply in_map_iff. now exists (k, o). }
        subst o0. apply Hnp1. assert (p = p0) by now apply (dest_unique objects o). now subst p0.
      * apply (Hdis' k3 o0 H0). apply in_map_iff. now exists (k3, v3).
    + cbn [map fst] in Hp1, Hp2. destruct Hp1 as [X|X].
      * destruct Hp2 as [Y|Y]; [|exists p2, k2, o2; split; [exact Y|split; assumption]]. subst p1 p2. exfalso. apply Hk.
        rewrite (Hu k1 o1 H1 Ho1), (Hu k2 o2 H2 Ho2). reflexivity.
      * exists p1, k1, o1. split; [exact X|split; assumption].
  - rewrite Em. exists tg'. split; [reflexivity|exact He].
Qed.

(** Refuted: once a string destination was appended the root of the target's tree has Limits, and the next document that brings one
    is not appended and takes all string destinations with it. *)
Theorem C85_again_refuted : forall h root es k o p pages tg troot ds,
  name_entries h root es -> NoDup (map fst es) -> (forall k o, In (k, o) es -> exists p, indirect_destination objects o p) ->
  In (k, o) es -> indirect_destination objects o p -> In p (map fst pages) ->
  d_tree tg = Some troot -> t_kids troot = None -> t_limits troot = true -> string_destinations tg ds -> NoDup (map fst ds) ->
  (forall k, In k (map fst es) -> ~ In k (map fst ds)) -> (forall l, exists c, alloc l = Ok c) ->
  exists F, forall fuel, (F <= fuel)%nat -> exists tg', append fuel pages (Some (h, root)) tg = (tg', Throw EDuplicateKey) /\ string_destinations tg' [].
Proof.
  intros h root es k o p pages tg troot ds Hs Hnes Hgood Hin Ho Hp Ht Hkids Hlim Hds Hnd Hdis Hal.
  destruct (source_map h root es Hs Hnes) as [F HF]. exists (Nat.max F 2). intros fuel Hf. destruct (HF fuel) as (t & E & Hmap & Hmn); [lia|].
  destruct fuel as [|[|f]]; [lia|lia|].
  assert (Hg : all_good objects (t_map t)).
  { intros k0 o0 H. apply Hmap in H. split; [|now apply (Hgood k0)]. pose proof (name_bytes _ _ _ Hs) as Hb. rewrite Forall_forall in Hb. exact (Hb _ H). }
  apply (merge_pages_closed objects alloc Hal f h root pages t tg ds E); [split; [exists troot; split; [exact Ht|split; assumption]|split; assumption]|exact Hg| |].
  - intros p0 k0 o0 _ H0 _. apply Hdis. apply in_map_iff. exists (k0, o0). split; [reflexivity|]. now apply Hmap.
  - exists p, k, o. split; [exact Hp|]. split; [now apply Hmap|exact Ho].
Qed.

(** Refuted: a string destination that is written into the name tree itself, and is no object of its own, makes the document impossible to
    append, whatever the target. *)
Theorem C85_direct_refuted : forall h root es k o p pages tg, name_entries h root es -> NoDup (map fst es) ->
  In (k, o) es -> direct_destination objects o p -> In p (map fst pages) ->
  exists F, forall fuel, (F <= fuel)%nat -> snd (append fuel pages (Some (h, root)) tg) <> Ok tt.
Proof.
  intros h root es k o p pages tg Hs Hn Hin Ho Hp. destruct (source_map h root es Hs Hn) as [F HF]. exists F. intros fuel Hf.
  destruct (HF fuel Hf) as (t & E & Hmap & _). apply Hmap in Hin. unfold append. revert tg.
  induction pages as [|[q new] pages IH]; intros tg; [destruct Hp|]. cbn [merge_pages merge_page]. rewrite E. destruct Hp as [X|Hp].
  - cbn [fst] in X. subst q. pose proof (asks_direct objects o p p Ho) as [Ea Hd]. rewrite N.eqb_refl in Ea.
    pose proof (merge_stuck objects alloc fuel p new (t_map t) tg k o Hin Ea (fun tg' => append_direct objects alloc fuel new k o tg' Hd)) as Hx.
    destruct (merge_strings _ _ fuel p new (t_map t) tg) as [tg' [[]|e| |]]; cbn [snd] in *; congruence.
  - destruct (merge_strings _ _ fuel q new (t_map t) tg) as [tg' [[]|e| |]]; cbn [snd]; try discriminate. apply IH. exact Hp.
Qed.

(** Refuted: a target whose name tree has kids takes no document with string destinations. *)
Theorem C85_kids_refuted : forall h root es k o p pages tg ds, name_entries h root es -> NoDup (map fst es) ->
  In (k, o) es -> indirect_destination objects o p -> In p (map fst pages) -> string_destinations tg ds -> has_kids tg ->
  exists F, forall fuel, (F <= fuel)%nat -> snd (append fuel pages (Some (h, root)) tg) <> Ok tt.
Proof.
  intros h root es k o p pages tg ds Hs Hn Hin Ho Hp Hds Hk. destruct (source_map h root es Hs Hn) as [F HF]. exists F. intros fuel Hf.
  destruct (HF fuel Hf) as (t & E & Hmap & _). apply Hmap in Hin. unfold append.
  assert (Hsame : forall q new names, snd (merge_strings objects alloc fuel q new names tg) = Ok tt -> fst (merge_strings objects alloc fuel q new names tg) = tg /\
    forall k0 o0, In (k0, o0) names -> rbind (destination_page (snd (resolve objects o0))) (on_page objects q) <> Ok true).
  { intros q new. induction names as [|[k0 o0] names IH]; intros H; [split; [reflexivity|intros ? ? []]|]. cbn [merge_strings] in *.
    destruct (rbind (destination_page (snd (resolve objects o0))) (on_page objects q)) as [[|]|e| |] eqn:Eq; cbn [snd] in H; try discriminate.
    - exfalso. pose proof (append_kids objects alloc fuel new k0 o0 tg ds Hds Hk) as Hx. destruct (append_string _ _ fuel new k0 o0 tg) as [tg' [[]|e| |]]; cbn [snd] in *; congruence.
    - destruct (IH H) as [H1 H2]. split; [exact H1|]. intros k1 o1 [X|X]; [|now apply (H2 k1)]. apply pair_equal_spec in X as [<- <-]. rewrite Eq. discriminate. }
  induction pages as [|[q new] pages IH]; [destruct Hp|]. cbn [merge_pages merge_page]. rewrite E. specialize (Hsame q new (t_map t)).
  destruct (merge_strings objects alloc fuel q new (t_map t) tg) as [tg' [[]|e| |]]; cbn [snd fst] in *; try discriminate.
  destruct (Hsame eq_refl) as [-> Hnone]. apply IH. destruct Hp as [X|Hp]; [|exact Hp]. cbn [fst] in X. subst q. exfalso. apply (Hnone k o Hin).
  rewrite (asks_indirect objects o p p Ho), N.eqb_refl. reflexivity.
Qed.
End C85.

(** Documents: one page with one destination; the same with two; with a direct one. *)
Definition book : N -> option obj := fun n =>
  if n =? 2 then Some (ODict [(str "Type", OName (str "Page"))])
  else if n =? 5 then Some (OArr [ORef 2 0; OName (str "Fit")])
  else if n =? 6 then Some (ODict [(str "A", OInt 1); (str "D", OArr [ORef 2 0; OName (str "FitH"); OInt 700]); (str "E", OArr [ORef 2 0])])
  else None.
Definition leaf (l : list obj) : tnode obj := TNode None false (Some l) None.
Definition nothing : theap obj := fun _ => None.
Definition chapter_one : tnode obj := leaf [OLit (str "one"); ORef 5 0].
Definition both : tnode obj := leaf [OLit (str "one"); ORef 5 0; OHex (str "two"); ORef 6 0].
Definition inline : tnode obj := leaf [OLit (str "one"); OArr [ORef 2 0; OName (str "Fit")]].
Definition own : target := {| d_tree := Some (leaf [OLit (str "mine"); ORef 7 0]); d_nodes := nothing; d_copies := [] |}.
Definition next (l : list (N * obj)) : res N := Ok (100 + N.of_nat (List.length l)).

Example C85_case :
  name_entries nothing both [(str "one", ORef 5 0); (str "two", ORef 6 0)] /\ name_entries nothing chapter_one [(str "one", ORef 5 0)] /\
  indirect_destination book (ORef 5 0) 2 /\ indirect_destination book (ORef 6 0) 2 /\ direct_destination book (OArr [ORef 2 0; OName (str "Fit")]) 2 /\
  flat own /\ string_destinations own [(str "mine", ORef 7 0)] /\
  merge_pages book next 3 [(2, 30)] (Some (nothing, chapter_one)) own =
    ({| d_tree := Some (TNode None true (Some [OLit (str "mine"); ORef 7 0; OLit (str "one"); ORef 100 0]) None); d_nodes := nothing;
        d_copies := [(100, OArr [ORef 30 0; OName (str "Fit")])] |}, Ok tt) /\
  d_copies (fst (merge_pages book next 3 [(2, 30)] (Some (nothing, leaf [OHex (str "two"); ORef 6 0])) own)) =
    [(100, ODict [(str "A", OInt 1); (str "D", OArr [ORef 30 0; OName (str "FitH"); OInt 700]); (str "E", OArr [ORef 2 0])])] /\
  snd (merge_pages book next 3 [(2, 30)] (Some (nothing, both)) own) = Throw EDuplicateKey /\
  snd (merge_pages book next 3 [(2, 30)] (Some (nothing, inline)) own) = Throw EGeneral /\
  snd (merge_pages book next 3 [(2, 30)] (Some (nothing, leaf [OLit (str "mine"); ORef 5 0])) own) = Throw ENotSupported /\
  snd (merge_pages book next 4 [(2, 30)] (Some (nothing, chapter_one))
         {| d_tree := Some (TNode (Some [8]) false None None); d_nodes := fun n => if n =? 8 then Some (TNode None true (Some [OLit (str "x"); ORef 7 0]) None) else None;
            d_copies := [] |}) = Throw EConversion.
Proof.
  assert (K : forall o k, (o = OLit k \/ o = OHex k) -> forallb (fun b => b <? 256) k = true -> string_key o k).
  { intros o k Ho Hb. split; [exact Ho|]. apply Forall_forall. intros b Hin. rewrite forallb_forall in Hb. specialize (Hb b Hin). unfold is_byte. lia. }
  split; [eapply te_values; [reflexivity|reflexivity|]; constructor; [apply K; [left|]; reflexivity|]; constructor; [apply K; [right|]; reflexivity|constructor]|].
  split; [eapply te_values; [reflexivity|reflexivity|]; constructor; [apply K; [left|]; reflexivity|constructor]|].
  split; [do 3 eexists; split; [reflexivity|]; split; [reflexivity|]; split; [eapply ds_array; split; [|reflexivity]; right; left; reflexivity|reflexivity]|].
  split.
  { do 3 eexists. split; [reflexivity|]. split; [reflexivity|]. split; [|reflexivity].
    apply (ds_dictionary 2 (str "FitH") [OInt 700] (OArr [ORef 2 0; OName (str "FitH"); OInt 700]) [(str "A", OInt 1)] [(str "E", OArr [ORef 2 0])]).
    - split; [right; right; left; reflexivity|reflexivity].
    - unfold sorted_keys. cbn [app]. repeat constructor. }
  split; [eexists; split; [eapply ds_array; split; [|reflexivity]; right; left; reflexivity|reflexivity]|].
  split; [intros root [= <-]; split; reflexivity|].
  split; [eapply te_values; [reflexivity|reflexivity|]; constructor; [apply K; [left|]; reflexivity|constructor]|].
  split; [vm_compute; reflexivity|]. split; [vm_compute; reflexivity|]. split; [vm_compute; reflexivity|]. split; [vm_compute; reflexivity|].
  split; vm_compute; reflexivity.
Qed.

Print Assumptions C85_none.
Print Assumptions C85_one_partial.
Print Assumptions C85_two_refuted.
Print Assumptions C85_again_refuted.
Print Assumptions C85_direct_refuted.
Print Assumptions C85_kids_refuted.

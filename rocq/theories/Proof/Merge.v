(** Facts about merging and renumbering sections. *)
From Coq Require Import List NArith ZArith Bool Lia String Sorted.
From Verif.Model Require Import Base SMap Object Containers Xref Chain Merge.
From Verif.Spec Require Import Strings Grammar Containers Chain Merge.
From Verif.Proof Require Import Tac SMap StreamObj Containers Chain.
Import ListNotations.
Local Open Scope N_scope.

(** ** merging *)
Definition used_for (n : N) (e : xentry) : bool := (xnum e =? n) && entry_in_use e.

Lemma add_to_ok : forall k e t t', add_to k e t = Ok t' -> t' = xadd e t.
Proof. intros k e t t' H. destruct k; cbn [add_to] in H; try (inversion H; reflexivity). unfold table_add in H. destruct (xdata e); inversion H; reflexivity. Qed.
Lemma add_used_find : forall k n l t t', add_used k l t = Ok t' ->
  xfind n t' = match find (used_for n) (rev l) with Some e => Some e | None => xfind n t end.
Proof.
  intros k n. induction l as [|e l IH]; intros t t' H; cbn [add_used] in H; [inversion H; reflexivity|].
  cbn [rev].
  assert (FA : forall (a b : list xentry), find (used_for n) (a ++ b) = match find (used_for n) a with Some x => Some x | None => find (used_for n) b end).
  { induction a as [|x a IHa]; intros b; cbn [find app]; [reflexivity|]. destruct (used_for n x); [reflexivity|apply IHa]. }
  rewrite FA. destruct (entry_in_use e) eqn:Eu.
  - apply rbind_ok in H. destruct H as (t1 & H1 & H). apply add_to_ok in H1. subst t1. rewrite (IH _ _ H).
    destruct (find (used_for n) (rev l)); [reflexivity|]. cbn [find]. unfold used_for. rewrite Eu, andb_true_r.
    destruct (xnum e =? n) eqn:En; [|apply xfind_xadd_other; lia]. assert (xnum e = n) by lia. subst n. apply xfind_xadd_same.
  - rewrite (IH _ _ H). destruct (find (used_for n) (rev l)); [reflexivity|]. cbn [find]. unfold used_for. rewrite Eu, andb_false_r. reflexivity.
Qed.
Lemma find_app : forall (f : xentry -> bool) a b, find f (a ++ b) = match find f a with Some x => Some x | None => find f b end.
Proof. intros f. induction a as [|x a IHa]; intros b; cbn [find app]; [reflexivity|]. destruct (f x); [reflexivity|apply IHa]. Qed.
Lemma merge_sections_find : forall k n c t t', merge_sections k c t = Ok t' ->
  xfind n t' = match find (used_for n) (rev (flat_map section_items c)) with Some e => Some e | None => xfind n t end.
Proof.
  intros k n. induction c as [|s c IH]; intros t t' H; cbn [merge_sections] in H; [inversion H; reflexivity|].
  apply rbind_ok in H. destruct H as (t1 & H1 & H). cbn [flat_map]. rewrite rev_app_distr, find_app, (IH _ _ H).
  destruct (find (used_for n) (rev (flat_map section_items c))); [reflexivity|]. apply (add_used_find k). exact H1.
Qed.
Definition newest_first (c : chain) : list xentry := flat_map (fun s => rev (section_items s)) c.
Lemma rev_items : forall c, rev (flat_map section_items (rev c)) = newest_first c.
Proof.
  unfold newest_first. induction c as [|s c IH]; [reflexivity|]. cbn [rev flat_map]. rewrite flat_map_app, rev_app_distr, IH.
  cbn [flat_map]. rewrite app_nil_r. reflexivity.
Qed.
Lemma merged_find : forall hd c m, merge_chain hd (rev c) = Ok [m] -> forall n,
  xfind n (s_entries m) = match find (used_for n) (newest_first c) with
                          | Some e => Some e
                          | None => if n =? 0 then Some {| xnum := 0; xgen := 65535; xdata := KFree 0 |} else None
                          end.
Proof.
  intros hd c m H n. unfold merge_chain in H. destruct (rev c) as [|s0 r] eqn:E; [discriminate|]. rewrite <- E in *. clear E.
  destruct (merged_kind hd (rev c)) as [k base]. apply rbind_ok in H. destruct H as (t0 & H0 & H). apply add_to_ok in H0. subst t0.
  apply rbind_ok in H. destruct H as (t & Ht & H). inversion H; subst. cbn [s_entries]. rewrite (merge_sections_find _ n _ _ _ Ht), rev_items.
  destruct (find (used_for n) (newest_first c)); [reflexivity|]. cbn [xadd xfind find xnum]. destruct (N.eq_dec n 0) as [->|Hn]; [reflexivity|].
  replace (0 =? n) with false by lia. replace (n =? 0) with false by lia. reflexivity.
Qed.
Lemma items_lists : forall s e, In e (section_items s) <-> lists s e.
Proof.
  intros s e. unfold section_items, lists. rewrite in_app_iff. destruct (s_kind s) eqn:Ek; [destruct (s_hybrid s) as [h|]|..].
  - split; [intros [H|H]; [auto|right; split; [reflexivity|eauto]]|intros [H|(_ & h' & Hh & H)]; [auto|inversion Hh; subst; auto]].
  - split; [intros [H|[]]; auto|intros [H|(_ & h' & Hh & _)]; [auto|discriminate]].
  - split; [intros [H|[]]; auto|intros [H|(Hk & _)]; [auto|discriminate]].
  - split; [intros [H|[]]; auto|intros [H|(Hk & _)]; [auto|discriminate]].
Qed.
Lemma entry_lists : forall s n e, entry_of s n e -> lists s e /\ xnum e = n.
Proof.
  intros s n e [(b & a & E & H & _)|(_ & Hk & h & b & a & Hh & E & H & _)]; (split; [|exact H]).
  - left. rewrite E. apply in_or_app. right. left. reflexivity.
  - right. split; [exact Hk|]. exists h. split; [exact Hh|]. rewrite E. apply in_or_app. right. left. reflexivity.
Qed.
Lemma once_entry : forall s e, numbers_once s -> lists s e -> entry_of s (xnum e) e.
Proof.
  intros s e Hone Hl. destruct (sec_find (xnum e) s) as [x|] eqn:E.
  - apply sec_find_entry in E. destruct (entry_lists _ _ _ E) as [Hx En]. assert (x = e) by (apply Hone; assumption). subst x. exact E.
  - exfalso. unfold sec_find in E. destruct (xfind (xnum e) (s_entries s)) eqn:E1; [discriminate|]. rewrite xfind_none in E1.
    destruct Hl as [Hl|(Hk & h & Hh & Hl)]; [eapply E1; [exact Hl|reflexivity]|]. rewrite Hk, Hh in E. rewrite xfind_none in E. eapply E; [exact Hl|reflexivity].
Qed.
Lemma describes_in_use : forall e, describes_object e <-> entry_in_use e = true.
Proof. intros [n g []]; cbn; split; try tauto; congruence. Qed.
Lemma merged_entry : forall hd newer s older e m, merge_chain hd (rev (newer ++ s :: older)) = Ok [m] ->
  numbers_once s -> lists s e -> describes_object e ->
  (forall s' e', In s' newer -> lists s' e' -> xnum e' = xnum e -> ~ describes_object e') ->
  xfind (xnum e) (s_entries m) = Some e.
Proof.
  intros hd newer s older e m H Hone Hl Hd Hn. rewrite (merged_find _ _ _ H). unfold newest_first. rewrite flat_map_app, find_app.
  assert (E1 : find (used_for (xnum e)) (flat_map (fun s => rev (section_items s)) newer) = None).
  { destruct (find _ _) as [x|] eqn:E; [|reflexivity]. apply find_some in E. destruct E as [Hin Hx]. apply in_flat_map in Hin. destruct Hin as (s' & Hs' & Hin).
    apply in_rev, items_lists in Hin. unfold used_for in Hx. apply andb_true_iff in Hx. destruct Hx as [X1 X2]. apply describes_in_use in X2.
    exfalso. eapply Hn; [exact Hs'|exact Hin|lia|exact X2]. }
  rewrite E1. cbn [flat_map]. rewrite find_app.
  destruct (find (used_for (xnum e)) (rev (section_items s))) as [x|] eqn:E.
  - apply find_some in E. destruct E as [Hin Hx]. apply in_rev, items_lists in Hin. unfold used_for in Hx. apply andb_true_iff in Hx. destruct Hx as [X1 _].
    f_equal. apply (Hone x e Hin Hl). lia.
  - exfalso. apply items_lists, in_rev in Hl. assert (G := find_none _ _ E e Hl). unfold used_for in G. apply describes_in_use in Hd. rewrite Hd, N.eqb_refl in G. discriminate.
Qed.
Lemma merged_none : forall hd c m n, merge_chain hd (rev c) = Ok [m] -> n <> 0 ->
  (forall s e, In s c -> lists s e -> xnum e = n -> ~ describes_object e) -> xfind n (s_entries m) = None.
Proof.
  intros hd c m n H Hn0 Hn. rewrite (merged_find _ _ _ H). destruct (find _ _) as [x|] eqn:E; [|replace (n =? 0) with false by lia; reflexivity].
  apply find_some in E. destruct E as [Hin Hx]. unfold newest_first in Hin. apply in_flat_map in Hin. destruct Hin as (s' & Hs' & Hin).
  apply in_rev, items_lists in Hin. unfold used_for in Hx. apply andb_true_iff in Hx. destruct Hx as [X1 X2]. apply describes_in_use in X2.
  exfalso. eapply Hn; [exact Hs'|exact Hin|lia|exact X2].
Qed.
Lemma merged_hybrid_none : forall hd c m, merge_chain hd c = Ok [m] -> s_hybrid m = None.
Proof.
  intros hd c m H. unfold merge_chain in H. destruct c as [|s0 r]; [discriminate|]. destruct (merged_kind hd (s0 :: r)) as [k base].
  apply rbind_ok in H. destruct H as (t0 & _ & H). apply rbind_ok in H. destruct H as (t & _ & H). inversion H; reflexivity.
Qed.
Lemma merged_resolve : forall hd c m n g, merge_chain hd c = Ok [m] ->
  resolve_entry n g [m] = match xfind n (s_entries m) with
                          | Some e => if xgen e =? g then (match xdata e with KFree _ => None | _ => Some e end) else None
                          | None => None
                          end.
Proof.
  intros hd c m n g H. unfold resolve_entry. cbn [chain_entry]. unfold sec_find. rewrite (merged_hybrid_none _ _ _ H).
  destruct (xfind n (s_entries m)) as [e|]; [destruct (xgen e =? g); reflexivity|]. destruct (s_kind m); reflexivity.
Qed.

Lemma merged_kind_table : forall hd c base, merged_kind hd c = (STable, base) ->
  base = [] /\ forall s, In s c -> s_kind s <> SStream /\ (s_kind s = STable -> s_hybrid s = None).
Proof.
  intros hd. induction c as [|s c IH]; intros base H; cbn [merged_kind] in H; [inversion H; split; [reflexivity|intros s []]|].
  destruct (s_kind s) eqn:Ek; [destruct (s_hybrid s) eqn:Eh; [discriminate|]|discriminate|];
    (destruct (IH _ H) as [-> I]; split; [reflexivity|]; intros x [<-|Hx]; [rewrite Ek; split; [discriminate|try discriminate; intros _; exact Eh]|apply I; exact Hx]).
Qed.
Lemma add_used_total : forall k l t, (k = STable -> Forall (fun e => match xdata e with KComp _ _ => False | _ => True end) l) ->
  exists t', add_used k l t = Ok t'.
Proof.
  intros k. induction l as [|e l IH]; intros t H; cbn [add_used]; [eauto|].
  assert (Hl : k = STable -> Forall (fun e => match xdata e with KComp _ _ => False | _ => True end) l) by (intros Hk; specialize (H Hk); inversion H; assumption).
  destruct (entry_in_use e); [|apply IH; exact Hl].
  assert (exists t1, add_to k e t = Ok t1) as (t1 & ->).
  { destruct k; cbn [add_to]; [|eauto|eauto]. specialize (H eq_refl). inversion H; subst. unfold table_add. destruct (xdata e); [eauto|eauto|tauto]. }
  cbn [rbind]. apply IH. exact Hl.
Qed.
Lemma merge_sections_total : forall k c t, (k = STable -> forall s, In s c -> Forall (fun e => match xdata e with KComp _ _ => False | _ => True end) (section_items s)) ->
  exists t', merge_sections k c t = Ok t'.
Proof.
  intros k. induction c as [|s c IH]; intros t H; cbn [merge_sections]; [eauto|].
  destruct (add_used_total k (section_items s) t) as (t1 & E); [intros Hk; apply (H Hk); left; reflexivity|]. rewrite E. cbn [rbind].
  apply IH. intros Hk x Hx. apply (H Hk). right. exact Hx.
Qed.
Lemma merge_total : forall hd c, tables_plain c -> c <> [] -> exists m, merge_chain hd c = Ok [m].
Proof.
  intros hd c Hp Hc. unfold merge_chain. destruct c as [|s0 r]; [congruence|]. destruct (merged_kind hd (s0 :: r)) as [k base] eqn:Ek.
  assert (exists t0, add_to k {| xnum := 0; xgen := 65535; xdata := KFree 0 |} [] = Ok t0) as (t0 & ->) by (destruct k; cbn; eauto).
  cbn [rbind]. destruct (merge_sections_total k (s0 :: r) t0) as (t & ->); [|cbn [rbind]; eauto].
  intros -> s Hs. destruct (merged_kind_table _ _ _ Ek) as [_ G]. destruct (G s Hs) as [G1 G2]. unfold section_items.
  replace (match s_kind s, s_hybrid s with STable, Some h => h | _, _ => [] end) with (@nil xentry).
  - rewrite app_nil_r, Forall_forall. intros e He. apply (Hp s e Hs G1 He).
  - destruct (s_kind s); [rewrite (G2 eq_refl)|..]; reflexivity.
Qed.

(** ** the trailer *)
Lemma copy_keys_agrees : forall from keys m f, Forall all_bytes keys -> agrees m f ->
  agrees (fold_left (copy_key from) keys m)
         (fun k => match f k with Some v => Some v | None => if in_dec (list_eq_dec N.eq_dec) k keys then sm_find k from else None end).
Proof.
  intros from. induction keys as [|k0 keys IH]; intros m f Hk Ha; cbn [fold_left].
  - eapply agrees_ext; [exact Ha|]. intros k _. destruct (f k); reflexivity.
  - inversion Hk as [|? ? Hb Hk']; subst. unfold copy_key at 2. destruct (sm_find k0 from) as [v|] eqn:E.
    + destruct (f k0) as [w|] eqn:Ef.
      * eapply agrees_ext; [apply IH; [exact Hk'|apply (agrees_insert_kept _ f); [exact Ha|exact Hb|congruence]]|].
        intros k Hkb. cbn beta. destruct (f k) eqn:Efk; [reflexivity|]. cbn [in_dec].
        destruct (in_dec (list_eq_dec N.eq_dec) k keys) as [Hi|Hi], (in_dec (list_eq_dec N.eq_dec) k (k0 :: keys)) as [Hj|Hj]; try reflexivity.
        -- exfalso. apply Hj. right. exact Hi.
        -- destruct Hj as [<-|Hj]; [congruence|contradiction].
      * eapply agrees_ext; [apply IH; [exact Hk'|apply agrees_insert; [exact Ha|exact Hb|exact Ef]]|].
        intros k Hkb. cbn beta. unfold fm_set, beq. destruct (list_eq_dec N.eq_dec k k0) as [->|Hne].
        -- rewrite Ef. destruct (in_dec (list_eq_dec N.eq_dec) k0 (k0 :: keys)) as [_|Hj]; [symmetry; exact E|exfalso; apply Hj; left; reflexivity].
        -- destruct (f k) eqn:Efk; [reflexivity|].
           destruct (in_dec (list_eq_dec N.eq_dec) k keys) as [Hi|Hi], (in_dec (list_eq_dec N.eq_dec) k (k0 :: keys)) as [Hj|Hj]; try reflexivity.
           ++ exfalso. apply Hj. right. exact Hi.
           ++ destruct Hj as [<-|Hj]; [congruence|contradiction].
    + eapply agrees_ext; [apply IH; [exact Hk'|exact Ha]|]. intros k Hkb. cbn beta. destruct (f k) eqn:Efk; [reflexivity|].
      destruct (in_dec (list_eq_dec N.eq_dec) k keys) as [Hi|Hi], (in_dec (list_eq_dec N.eq_dec) k (k0 :: keys)) as [Hj|Hj]; try reflexivity.
      * exfalso. apply Hj. right. exact Hi.
      * destruct Hj as [<-|Hj]; [symmetry; exact E|contradiction].
Qed.
Lemma clone_trailer_agrees : forall s, agrees (clone_trailer s)
  (fun k => if list_eq_dec N.eq_dec k (str "Size") then Some (OInt (Z.of_nat (List.length (s_entries s))))
            else if in_dec (list_eq_dec N.eq_dec) k trailer_keys then sm_find k (s_trailer s) else None).
Proof.
  intros s. unfold clone_trailer.
  assert (Hk : Forall all_bytes trailer_keys) by (unfold trailer_keys; repeat constructor; apply str_bytes).
  assert (H0 : agrees [(str "Size", OInt (Z.of_nat (List.length (s_entries s))))]
                 (fun k => if list_eq_dec N.eq_dec k (str "Size") then Some (OInt (Z.of_nat (List.length (s_entries s)))) else None)).
  { generalize (OInt (Z.of_nat (List.length (s_entries s)))). intros v. split; [|split].
    - repeat constructor.
    - constructor; [apply str_bytes|constructor].
    - intros k Hb. cbn [sm_find]. destruct (list_eq_dec N.eq_dec k (str "Size")) as [->|Hne]; [rewrite ltb_irrefl; reflexivity|].
      destruct (buffer_ltb k (str "Size")) eqn:E1; [reflexivity|]. destruct (buffer_ltb (str "Size") k) eqn:E2; [reflexivity|].
      exfalso. apply Hne. apply ltb_total; [exact Hb|apply str_bytes|exact E1|exact E2]. }
  eapply agrees_ext; [apply copy_keys_agrees; [exact Hk|exact H0]|]. intros k _. cbn beta.
  destruct (list_eq_dec N.eq_dec k (str "Size")); reflexivity.
Qed.
Lemma merged_trailer : forall hd c newest older m, c = older ++ [newest] -> merge_chain hd c = Ok [m] -> forall base k,
  merged_kind hd c = (k, base) -> agrees base (fun key => sm_find key base) -> forall key, all_bytes key -> key <> str "Prev" ->
  sm_find key (s_trailer m) =
  match sm_find key base with
  | Some v => Some v
  | None => if list_eq_dec N.eq_dec key (str "Size") then Some (OInt (Z.of_nat (List.length (s_entries newest))))
            else if in_dec (list_eq_dec N.eq_dec) key trailer_keys then sm_find key (s_trailer newest) else None
  end.
Proof.
  intros hd c newest older m Hc H base k Hk Hbase key Hb Hp. unfold merge_chain in H. destruct c as [|s0 r] eqn:Ec; [discriminate|]. rewrite <- Ec in *.
  rewrite Hk in H. apply rbind_ok in H. destruct H as (t0 & _ & H). apply rbind_ok in H. destruct H as (t & _ & H).
  assert (Hl : last c s0 = newest) by (rewrite Hc; apply last_last). rewrite Hl in H. remember (str "Prev") as pv eqn:Epv. inversion H; subst m. cbn [s_trailer]. subst pv.
  destruct (clone_trailer_agrees newest) as (C1 & C2 & C3).
  destruct (agrees_merge (clone_trailer newest) base _ C2 C1 Hbase) as (M1 & M2 & M3).
  rewrite sm_find_remove; [|exact M1|exact M2|apply str_bytes|exact Hb]. destruct (list_eq_dec N.eq_dec key (str "Prev")); [contradiction|].
  rewrite M3 by exact Hb. destruct (sm_find key base); [reflexivity|]. apply C3. exact Hb.
Qed.
Lemma merged_no_prev : forall hd c m base k, merge_chain hd c = Ok [m] -> merged_kind hd c = (k, base) -> agrees base (fun key => sm_find key base) ->
  sm_find (str "Prev") (s_trailer m) = None.
Proof.
  intros hd c m base k H Hk Hbase. unfold merge_chain in H. destruct c as [|s0 r] eqn:Ec; [discriminate|]. rewrite <- Ec in *.
  rewrite Hk in H. apply rbind_ok in H. destruct H as (t0 & _ & H). apply rbind_ok in H. destruct H as (t & _ & H). remember (str "Prev") as pv eqn:Epv. inversion H; subst m. cbn [s_trailer]. subst pv.
  destruct (clone_trailer_agrees (last c s0)) as (C1 & C2 & C3).
  destruct (agrees_merge (clone_trailer (last c s0)) base _ C2 C1 Hbase) as (M1 & M2 & M3).
  rewrite sm_find_remove; [|exact M1|exact M2|apply str_bytes|apply str_bytes]. destruct (list_eq_dec N.eq_dec (str "Prev") (str "Prev")); [reflexivity|congruence].
Qed.
Lemma agrees_nil : agrees (V := obj) [] (fun key => sm_find key []).
Proof. split; [constructor|split; [constructor|reflexivity]]. Qed.

(** ** renumbering *)
Section Squash.
Context {A : Type}.
Notation entry := (xentry * A)%type.
Definition psorted (l : list entry) : Prop := StronglySorted N.lt (map (fun p => xnum (fst p)) l).

Fixpoint number_from (i : N) (l : list entry) : list entry :=
  match l with [] => [] | p :: r => renumber i p :: number_from (i + 1) r end.
Fixpoint moves_from (i : N) (l : list entry) (m : list (N * N)) : list (N * N) :=
  match l with
  | [] => m
  | p :: r => moves_from (i + 1) r (if xnum (fst p) =? i then m else (xnum (fst p), i) :: m)
  end.
Lemma premove_other : forall n (l : list entry), Forall (fun p => xnum (fst p) <> n) l -> premove n l = l.
Proof.
  intros n l H. unfold premove. induction H as [|p l Hp H IH]; [reflexivity|]. cbn [filter]. replace (xnum (fst p) =? n) with false by lia.
  cbn [negb]. rewrite IH. reflexivity.
Qed.
Lemma premove_app : forall n (a b : list entry), premove n (a ++ b) = premove n a ++ premove n b.
Proof. intros n a b. apply filter_app. Qed.
Lemma padd_middle : forall p (a b : list entry), Forall (fun x => xnum (fst x) < xnum (fst p)) a -> Forall (fun x => xnum (fst p) < xnum (fst x)) b ->
  padd p (a ++ b) = a ++ p :: b.
Proof.
  intros p a b Ha Hb. induction Ha as [|x a Hx Ha IH]; cbn [app padd].
  - destruct b as [|y b]; [reflexivity|]. inversion Hb; subst. cbn [padd]. replace (xnum (fst p) <? xnum (fst y)) with true by lia. reflexivity.
  - replace (xnum (fst p) <? xnum (fst x)) with false by lia. replace (xnum (fst p) =? xnum (fst x)) with false by lia. rewrite IH. reflexivity.
Qed.
Lemma sorted_tail : forall p (l : list entry), psorted (p :: l) -> psorted l /\ Forall (fun x => xnum (fst p) < xnum (fst x)) l.
Proof.
  intros p l H. unfold psorted in *. cbn [map] in H. inversion H as [|? ? H1 H2]; subst. split; [exact H1|].
  rewrite Forall_forall in *. intros x Hx. apply (H2 (xnum (fst x))). apply (in_map (fun p => xnum (fst p))), Hx.
Qed.
Lemma squash_entries_spec : forall r i done m, psorted r -> Forall (fun p => i <= xnum (fst p)) r -> Forall (fun p => xnum (fst p) < i) done ->
  squash_entries i r (done ++ r) m = (i + N.of_nat (List.length r), done ++ number_from i r, moves_from i r m).
Proof.
  induction r as [|p r IH]; intros i done m Hs Hi Hd; cbn [squash_entries number_from moves_from List.length].
  - rewrite N.add_0_r. reflexivity.
  - destruct (sorted_tail _ _ Hs) as [Hs' Hp]. inversion Hi as [|? ? Hi1 Hi2]; subst.
    assert (Hnext : Forall (fun x : entry => i + 1 <= xnum (fst x)) r) by (rewrite Forall_forall in *; intros x Hx; specialize (Hp x Hx); lia).
    destruct (xnum (fst p) =? i) eqn:E.
    + replace (done ++ p :: r) with ((done ++ [p]) ++ r) by (rewrite <- app_assoc; reflexivity). rewrite IH; [|exact Hs'|exact Hnext|].
      * rewrite <- app_assoc. assert (Hr : renumber i p = p) by (destruct p as [[n g dt] o]; unfold renumber; cbn in *; f_equal; f_equal; lia).
        rewrite Hr. f_equal. f_equal. lia.
      * apply Forall_app. split; [rewrite Forall_forall in *; intros x Hx; specialize (Hd x Hx); lia|constructor; [lia|constructor]].
    + rewrite premove_app. cbn [premove filter]. rewrite N.eqb_refl. cbn [negb]. fold (premove (xnum (fst p)) r).
      rewrite (premove_other _ done) by (rewrite Forall_forall in *; intros x Hx; specialize (Hd x Hx); lia).
      rewrite (premove_other _ r) by (rewrite Forall_forall in *; intros x Hx; specialize (Hp x Hx); lia).
      rewrite padd_middle; cbn [renumber fst xnum]; [|exact Hd|rewrite Forall_forall in *; intros x Hx; specialize (Hp x Hx); lia].
      replace (done ++ renumber i p :: r) with ((done ++ [renumber i p]) ++ r) by (rewrite <- app_assoc; reflexivity). rewrite IH; [|exact Hs'|exact Hnext|].
      * rewrite <- app_assoc. f_equal. f_equal. lia.
      * apply Forall_app. split; [rewrite Forall_forall in *; intros x Hx; specialize (Hd x Hx); lia|constructor; [cbn; lia|constructor]].
Qed.
Lemma rank_cons_lt : forall p (l : list entry) n, xnum (fst p) < n -> rank (p :: l) n = rank l n + 1.
Proof. intros p l n H. unfold rank. cbn [filter]. replace (xnum (fst p) <? n) with true by lia. cbn [List.length]. lia. Qed.
Lemma rank_cons_ge : forall p (l : list entry) n, n <= xnum (fst p) -> rank (p :: l) n = rank l n.
Proof. intros p l n H. unfold rank. cbn [filter]. replace (xnum (fst p) <? n) with false by lia. reflexivity. Qed.
Lemma rank_zero : forall (l : list entry) n, Forall (fun x => n <= xnum (fst x)) l -> rank l n = 0.
Proof. intros l n H. induction H as [|p l Hp H IH]; [reflexivity|]. rewrite rank_cons_ge by exact Hp. exact IH. Qed.
Lemma number_from_rank : forall l i, psorted l -> number_from i l = map (fun p => renumber (i + rank l (xnum (fst p))) p) l.
Proof.
  induction l as [|p l IH]; intros i Hs; [reflexivity|]. destruct (sorted_tail _ _ Hs) as [Hs' Hp]. cbn [number_from map].
  rewrite rank_cons_ge by lia. rewrite rank_zero by (rewrite Forall_forall in *; intros x Hx; specialize (Hp x Hx); lia).
  rewrite N.add_0_r. f_equal. rewrite (IH _ Hs'). apply map_ext_in. intros x Hx. rewrite Forall_forall in Hp. rewrite rank_cons_lt by (apply Hp; exact Hx).
  f_equal. lia.
Qed.
Lemma mapped_moves : forall l i m n, psorted l -> Forall (fun p => i <= xnum (fst p)) l ->
  mapped (moves_from i l m) n = if has_number l n then (if n =? i + rank l n then mapped m n else i + rank l n) else mapped m n.
Proof.
  induction l as [|p l IH]; intros i m n Hs Hi; cbn [moves_from]; [reflexivity|].
  destruct (sorted_tail _ _ Hs) as [Hs' Hp]. inversion Hi as [|? ? Hi1 Hi2]; subst.
  assert (Hnext : Forall (fun x : entry => i + 1 <= xnum (fst x)) l) by (rewrite Forall_forall in *; intros x Hx; specialize (Hp x Hx); lia).
  rewrite (IH _ _ _ Hs' Hnext). unfold has_number. cbn [existsb]. fold (has_number l n).
  destruct (xnum (fst p) =? n) eqn:En; cbn [orb].
  - assert (Hno : has_number l n = false).
    { apply not_true_iff_false. intros H. apply existsb_exists in H. destruct H as (x & Hx & E). rewrite Forall_forall in Hp. specialize (Hp x Hx). lia. }
    rewrite Hno. rewrite rank_cons_ge by lia. rewrite rank_zero by (rewrite Forall_forall in *; intros x Hx; specialize (Hp x Hx); lia).
    rewrite N.add_0_r. destruct (xnum (fst p) =? i) eqn:Ei.
    + replace (n =? i) with true by lia. reflexivity.
    + replace (n =? i) with false by lia. cbn [mapped]. rewrite En. reflexivity.
  - destruct (has_number l n) eqn:Hh.
    + assert (xnum (fst p) < n). { apply existsb_exists in Hh. destruct Hh as (x & Hx & E). rewrite Forall_forall in Hp. specialize (Hp x Hx). lia. }
      rewrite rank_cons_lt by assumption. replace (i + 1 + rank l n) with (i + (rank l n + 1)) by lia.
      destruct (n =? i + (rank l n + 1)); [|reflexivity]. destruct (xnum (fst p) =? i); [reflexivity|]. cbn [mapped]. rewrite En. reflexivity.
    + destruct (xnum (fst p) =? i); [reflexivity|]. cbn [mapped]. rewrite En. reflexivity.
Qed.
Lemma squash_single : forall l : list entry, psorted l -> squash [l] = [map (closed_up l) l].
Proof.
  intros l Hs. unfold squash. cbn [squash_sections]. change (squash_entries 0 l l []) with (squash_entries 0 l ([] ++ l) []).
  rewrite squash_entries_spec; [|exact Hs|rewrite Forall_forall; intros; lia|constructor]. cbn [app map].
  rewrite number_from_rank by exact Hs. rewrite map_map. f_equal. apply map_ext_in. intros p Hp. unfold fix_stream, closed_up, renumber. cbn [fst snd xdata xnum xgen].
  rewrite N.add_0_l. destruct (xdata (fst p)); try reflexivity.
  rewrite mapped_moves; [|exact Hs|rewrite Forall_forall; intros; lia]. rewrite N.add_0_l. cbn [mapped].
  destruct (has_number l stream); [|reflexivity]. destruct (stream =? rank l stream) eqn:E; [|reflexivity].
  replace (rank l stream) with stream by lia. reflexivity.
Qed.
Lemma ranks_dense : forall l : list entry, psorted l -> map (fun p => rank l (xnum (fst p))) l = nrange 0 (List.length l).
Proof.
  intros l Hs. assert (G : forall i (l : list entry), map (fun p => xnum (fst p)) (number_from i l) = nrange i (List.length l)).
  { clear. intros i l. revert i. induction l as [|p l IH]; intros i; [reflexivity|]. cbn [number_from map List.length nrange]. rewrite IH. reflexivity. }
  specialize (G 0 l). rewrite number_from_rank in G by exact Hs. rewrite map_map in G. cbn [renumber fst xnum] in G.
  rewrite <- G. apply map_ext. intros p. lia.
Qed.
End Squash.

(** Lemmas about saving hybrid-reference files. *)
From Coq Require Import List NArith ZArith Bool Lia String.
From Verif.Model Require Import Base SMap Object Equality Xref Header FileWrite Chain Merge Unreferenced Duplicates Save StreamFile SaveStream HybridSave.
From Verif.Spec Require Import Chain Merge Save HybridSave.
From Verif.Proof Require Import Tac.
From Verif.Proof Require Chain Merge.
Import ListNotations.
Local Open Scope N_scope.

(** ** Looking up *)
Lemma xfind_none : forall n l, xfind n l = None <-> forall e, In e l -> xnum e <> n.
Proof.
  intros n l. unfold xfind. split.
  - intros H e He E. pose proof (find_none _ _ H e He) as F. cbv beta in F. rewrite E, N.eqb_refl in F. discriminate.
  - intros H. destruct (find (fun e => xnum e =? n) l) as [e|] eqn:E; [|reflexivity]. apply find_some in E. destruct E as [A B].
    exfalso. apply (H e A). apply N.eqb_eq. exact B.
Qed.
Lemma spread_entry : forall dict n g c, Forall apart c -> chain_entry n g c = chain_entry n g (spread dict c).
Proof.
  intros dict n g c. induction c as [|s c IH]; intros H; [reflexivity|]. inversion H as [|s' c' Hs Hc]; subst. specialize (IH Hc).
  unfold spread in *. cbn [flat_map]. unfold spread_section at 1. cbn [app chain_entry]. unfold sec_find at 2. cbn [s_entries s_kind s_hybrid].
  unfold sec_find at 1. destruct (xfind n (s_entries s)) as [e|] eqn:E.
  - destruct (xgen e =? g); [reflexivity|]. rewrite IH. destruct (s_kind s), (s_hybrid s) as [h|] eqn:Eh; try reflexivity.
    cbn [app chain_entry]. unfold sec_find. cbn [s_entries s_kind s_hybrid].
    assert (En : xfind n h = None).
    { apply xfind_none. intros e' He' En. unfold xfind in E. apply find_some in E. destruct E as [A B]. apply N.eqb_eq in B.
      apply (Hs h e e' Eh A He'). congruence. }
    rewrite En. reflexivity.
  - destruct (s_kind s) eqn:Ek; [destruct (s_hybrid s) as [h|]|..]; try exact IH.
    cbn [app chain_entry]. unfold sec_find. cbn [s_entries s_kind s_hybrid]. destruct (xfind n h) as [e|]; [|exact IH].
    destruct (xgen e =? g); [reflexivity|exact IH].
Qed.
Lemma spread_objects : forall content dict c n g, Forall apart c ->
  document_objects content c n g = document_objects content (spread dict c) n g.
Proof. intros content dict c n g H. unfold document_objects, resolve_entry. rewrite (spread_entry dict n g c H). reflexivity. Qed.

(** ** Merging *)
Lemma xadd_swap : forall a b t, xnum a <> xnum b -> xadd a (xadd b t) = xadd b (xadd a t).
Proof.
  intros a b t Hab. induction t as [|x r IH]; cbn [xadd].
  - destruct (xnum a <? xnum b) eqn:E1, (xnum b <? xnum a) eqn:E2, (xnum a =? xnum b) eqn:E3, (xnum b =? xnum a) eqn:E4; try reflexivity; lia.
  - destruct (xnum a <? xnum x) eqn:A1, (xnum b <? xnum x) eqn:B1; cbn [xadd].
    + destruct (xnum a <? xnum b) eqn:E1, (xnum b <? xnum a) eqn:E2, (xnum a =? xnum b) eqn:E3, (xnum b =? xnum a) eqn:E4; rewrite ?A1, ?B1; try reflexivity; lia.
    + replace (xnum b <? xnum a) with false by lia. replace (xnum b =? xnum a) with false by lia. rewrite B1.
      destruct (xnum b =? xnum x) eqn:B2; cbn [xadd].
      * replace (xnum a <? xnum b) with true by lia. reflexivity.
      * rewrite A1. reflexivity.
    + replace (xnum a <? xnum b) with false by lia. replace (xnum a =? xnum b) with false by lia. rewrite A1.
      destruct (xnum a =? xnum x) eqn:A2; cbn [xadd].
      * replace (xnum b <? xnum a) with true by lia. reflexivity.
      * rewrite B1. reflexivity.
    + destruct (xnum a =? xnum x) eqn:A2, (xnum b =? xnum x) eqn:B2; cbn [xadd]; rewrite ?A1, ?A2, ?B1, ?B2; try lia.
      * replace (xnum b <? xnum a) with false by lia. replace (xnum b =? xnum a) with false by lia. reflexivity.
      * replace (xnum a <? xnum b) with false by lia. replace (xnum a =? xnum b) with false by lia. reflexivity.
      * rewrite IH. reflexivity.
Qed.
(** what the loops do when the merged section is a stream *)
Fixpoint put (l t : list xentry) : list xentry :=
  match l with [] => t | e :: r => put r (if entry_in_use e then xadd e t else t) end.
Lemma add_used_put : forall l t, add_used SStream l t = Ok (put l t).
Proof.
  induction l as [|e l IH]; intros t; [reflexivity|]. cbn [add_used put]. destruct (entry_in_use e); [|apply IH].
  cbn [add_to]. cbn [rbind]. apply IH.
Qed.
Lemma put_app : forall l m t, put (l ++ m) t = put m (put l t).
Proof. induction l as [|e l IH]; intros m t; [reflexivity|]. cbn [app put]. apply IH. Qed.
Lemma put_one : forall l e t, (forall x, In x l -> xnum x <> xnum e) -> put l (xadd e t) = xadd e (put l t).
Proof.
  induction l as [|x l IH]; intros e t H; [reflexivity|]. cbn [put].
  assert (Hx : xnum x <> xnum e) by (apply H; left; reflexivity).
  destruct (entry_in_use x); [rewrite (xadd_swap x e t Hx)|]; apply IH; intros y Hy; apply H; right; exact Hy.
Qed.
Lemma put_swap : forall l m t, (forall x y, In x l -> In y m -> xnum x <> xnum y) -> put l (put m t) = put m (put l t).
Proof.
  intros l m. revert l. induction m as [|e m IH]; intros l t H; [reflexivity|]. cbn [put].
  rewrite (IH l) by (intros x y Hx Hy; apply H; [exact Hx|right; exact Hy]).
  destruct (entry_in_use e); [|reflexivity]. rewrite put_one; [reflexivity|].
  intros x Hx. apply H; [exact Hx|left; reflexivity].
Qed.

Lemma merge_sections_app : forall k a b t, merge_sections k (a ++ b) t = do t' <- merge_sections k a t;; merge_sections k b t'.
Proof.
  intros k a b. induction a as [|s a IH]; intros t; [reflexivity|]. cbn [app merge_sections].
  destruct (add_used k (section_items s) t) as [t'| | |]; cbn [rbind]; [apply IH|reflexivity..].
Qed.
Lemma merge_sections_put : forall c t, merge_sections SStream c t = Ok (put (flat_map section_items c) t).
Proof.
  induction c as [|s c IH]; intros t; [reflexivity|]. cbn [merge_sections flat_map]. rewrite add_used_put. cbn [rbind]. rewrite IH, put_app. reflexivity.
Qed.
Definition plain (s : section) : Prop := match s_kind s, s_hybrid s with STable, Some _ => False | _, _ => True end.

Lemma spread_items : forall dict s, section_items (hd s (spread_section dict s)) = s_entries s.
Proof. intros dict s. unfold spread_section, section_items. cbn [hd s_entries s_kind s_hybrid]. destruct (s_kind s); apply app_nil_r. Qed.

(** the sections oldest first *)
Lemma rev_spread : forall dict c, rev (spread dict c) = flat_map (fun s => rev (spread_section dict s)) (rev c).
Proof.
  intros dict c. unfold spread. induction c as [|s c IH]; [reflexivity|]. cbn [flat_map rev]. rewrite rev_app_distr, flat_map_app, IH. cbn [flat_map]. rewrite app_nil_r. reflexivity.
Qed.
Lemma spread_put : forall dict c t, Forall apart c ->
  put (flat_map section_items (flat_map (fun s => rev (spread_section dict s)) c)) t = put (flat_map section_items c) t.
Proof.
  intros dict c. induction c as [|s c IH]; intros t H; [reflexivity|]. inversion H as [|s' c' Hs Hc]; subst. cbn [flat_map].
  rewrite flat_map_app, !put_app, IH by exact Hc. f_equal. unfold spread_section, section_items at 2.
  destruct (s_kind s) eqn:Ek, (s_hybrid s) as [h|] eqn:Eh; cbn [rev app flat_map]; unfold section_items; cbn [s_entries s_kind s_hybrid]; rewrite ?app_nil_r; try reflexivity.
  rewrite !put_app. symmetry. apply put_swap. intros x y Hx Hy E. exact (Hs h y x Eh Hy Hx (eq_sym E)).
Qed.
Lemma plain_spread : forall dict s, plain s -> section_items s = s_entries s /\ spread_section dict s = [bare s].
Proof.
  intros dict s H. unfold plain in H. unfold section_items, spread_section, bare. destruct (s_kind s), (s_hybrid s); try contradiction; rewrite app_nil_r; auto.
Qed.
Lemma merged_kind_table : forall dict c base, merged_kind dict c = (STable, base) -> base = [] /\ Forall plain c.
Proof.
  intros dict c base. induction c as [|s c IH]; intros H; cbn [merged_kind] in H; [injection H as <-; split; [reflexivity|constructor]|].
  destruct (s_kind s) eqn:Ek; [destruct (s_hybrid s) eqn:Eh|..]; try discriminate;
    (destruct (IH H) as [A B]; split; [exact A|constructor; [unfold plain; rewrite Ek; try rewrite Eh; exact I|exact B]]).
Qed.
Lemma merged_kind_spread : forall dict hd' c,
  merged_kind hd' (flat_map (fun s => rev (spread_section dict s)) c) = merged_kind dict c.
Proof.
  intros dict hd' c. induction c as [|s c IH]; [reflexivity|]. cbn [flat_map]. unfold spread_section at 1. cbn [merged_kind].
  destruct (s_kind s) eqn:Ek, (s_hybrid s) as [h|] eqn:Eh; cbn [rev app merged_kind s_kind s_hybrid s_trailer]; try reflexivity; exact IH.
Qed.
Lemma merged_kind_kinds : forall dict c, fst (merged_kind dict c) = STable \/ fst (merged_kind dict c) = SStream.
Proof.
  intros dict c. induction c as [|s c IH]; [left; reflexivity|]. cbn [merged_kind]. destruct (s_kind s), (s_hybrid s); auto.
Qed.
Lemma merge_plain : forall dict k c t, Forall plain c ->
  merge_sections k (flat_map (fun s => rev (spread_section dict s)) c) t = merge_sections k c t.
Proof.
  intros dict k c. induction c as [|s c IH]; intros t H; [reflexivity|]. inversion H as [|s' c' Hs Hc]; subst. cbn [flat_map].
  destruct (plain_spread dict s Hs) as [A B]. rewrite B. cbn [rev app merge_sections]. rewrite A.
  replace (section_items (bare s)) with (s_entries s) by (unfold section_items, bare; cbn [s_entries s_kind s_hybrid]; destruct (s_kind s); rewrite app_nil_r; reflexivity).
  destruct (add_used k (s_entries s) t) as [t'| | |]; cbn [rbind]; [apply IH; exact Hc|reflexivity..].
Qed.

Lemma last_cons : forall {A : Type} (x : A) l d, last (x :: l) d = last l x.
Proof.
  intros A x l. revert x. induction l as [|y l IH]; intros x d; [reflexivity|]. transitivity (last (y :: l) d); [reflexivity|].
  rewrite (IH y d), (IH y x). reflexivity.
Qed.
Lemma last_rev : forall {A : Type} (x : A) l d, last (rev (x :: l)) d = x.
Proof. intros A x l d. cbn [rev]. rewrite last_last. reflexivity. Qed.

Theorem merge_spread : forall dict s0 c, Forall apart (s0 :: c) ->
  merge_chain (fun _ => []) (rev (spread dict (s0 :: c))) = merge_chain dict (rev (s0 :: c)).
Proof.
  intros dict s0 c H.
  assert (Hr : Forall apart (rev (s0 :: c))) by (apply Forall_rev; exact H).
  assert (Ht : exists x r, rev (s0 :: c) = x :: r) by (destruct (rev (s0 :: c)) as [|x r] eqn:E; [apply (f_equal (@List.length _)) in E; rewrite rev_length in E; discriminate|eauto]).
  assert (Ht' : exists x r, rev (spread dict (s0 :: c)) = x :: r).
  { destruct (rev (spread dict (s0 :: c))) as [|x r] eqn:E; [|eauto]. apply (f_equal (@List.length _)) in E. rewrite rev_length in E. discriminate. }
  assert (L : forall d, last (rev (s0 :: c)) d = s0) by (intros d; apply last_rev).
  assert (L' : forall d, last (rev (spread dict (s0 :: c))) d = bare s0).
  { intros d. unfold spread. cbn [flat_map]. unfold spread_section at 1. cbn [app]. apply last_rev. }
  unfold merge_chain. destruct Ht as (x & r & Ex). destruct Ht' as (x' & r' & Ex'). rewrite Ex, Ex'. rewrite <- Ex, <- Ex'.
  rewrite L, L'. rewrite rev_spread, (merged_kind_spread dict (fun _ => []) (rev (s0 :: c))).
  destruct (merged_kind dict (rev (s0 :: c))) as [k base] eqn:Ek.
  assert (Hm : forall t, merge_sections k (flat_map (fun s => rev (spread_section dict s)) (rev (s0 :: c))) t = merge_sections k (rev (s0 :: c)) t).
  { intros t. destruct (merged_kind_kinds dict (rev (s0 :: c))) as [K|K]; rewrite Ek in K; cbn [fst] in K; subst k.
    - apply merge_plain. apply (merged_kind_table dict _ base). exact Ek.
    - rewrite !merge_sections_put. f_equal. apply spread_put. exact Hr. }
  destruct (add_to k {| xnum := 0; xgen := 65535; xdata := KFree 0 |} []) as [t0| | |]; cbn [rbind]; [|reflexivity..].
  rewrite Hm. destruct (merge_sections k (rev (s0 :: c)) t0) as [t| | |]; cbn [rbind]; reflexivity.
Qed.

Lemma optimize_spread : forall real hash content order arrange dict self s0 c, Forall apart (s0 :: c) ->
  optimize_hybrid real hash content order arrange dict self (s0 :: c) = optimize_stream real hash content order arrange self (spread dict (s0 :: c)).
Proof. intros real hash content order arrange dict self s0 c H. unfold optimize_hybrid, optimize_stream. rewrite (merge_spread dict s0 c H). reflexivity. Qed.

(** ** Cloning *)
Lemma unlisted_throws : forall content stream_of done newer s older h,
  Forall plain newer -> s_kind s = STable -> s_hybrid s = Some h ->
  (forall x e, In x (done ++ newer ++ s :: older) -> In e (s_entries x) -> xnum e <> fst (stream_of s)) ->
  Forall (fun x => plain x) done ->
  clone_hybrids content stream_of done (newer ++ s :: older) = Throw EObjectMissing.
Proof.
  intros content stream_of done newer. revert done. induction newer as [|x newer IH]; intros done s older h Hp Hk Hh Hn Hd.
  - cbn [app clone_hybrids]. rewrite Hk, Hh.
    assert (E : forall c, (forall x, In x c -> plain x /\ forall e, In e (s_entries x) -> xnum e <> fst (stream_of s)) ->
              chain_entry (fst (stream_of s)) (snd (stream_of s)) c = None).
    { induction c as [|y c IHc]; intros H; [reflexivity|]. cbn [chain_entry].
      destruct (H y (or_introl eq_refl)) as [P Q]. assert (Ey : xfind (fst (stream_of s)) (s_entries y) = None) by (apply xfind_none; exact Q).
      unfold sec_find. rewrite Ey. unfold plain in P.
      rewrite IHc by (intros z Hz; apply H; right; exact Hz). destruct (s_kind y), (s_hybrid y); try contradiction; reflexivity. }
    rewrite E; [reflexivity|]. intros x Hx. apply in_app_or in Hx. destruct Hx as [Hx|Hx].
    + split; [rewrite Forall_forall in Hd; apply Hd; exact Hx|]. intros e He. apply (Hn x e); [apply in_or_app; left; exact Hx|exact He].
    + apply in_map_iff in Hx. destruct Hx as (y & <- & Hy). split; [unfold plain, bare; cbn [s_kind s_hybrid]; destruct (s_kind y); exact I|].
      intros e He. unfold bare in He. cbn [s_entries] in He. apply (Hn y e); [|exact He]. apply in_or_app. right. exact Hy.
  - inversion Hp as [|x' n' Px Pn]; subst. cbn [app clone_hybrids].
    assert (G : clone_hybrids content stream_of (done ++ [x]) (newer ++ s :: older) = Throw EObjectMissing).
    { apply (IH (done ++ [x]) s older h Pn Hk Hh).
      - intros y e Hy He. apply (Hn y e); [|exact He]. rewrite <- app_assoc in Hy. exact Hy.
      - apply Forall_app. split; [exact Hd|constructor; [exact Px|constructor]]. }
    unfold plain in Px. destruct (s_kind x), (s_hybrid x); try contradiction; exact G.
Qed.

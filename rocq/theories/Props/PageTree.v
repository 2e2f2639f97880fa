(** C39, C40: the page tree. *)
From Coq Require Import List NArith ZArith Bool Lia.
From Verif.Model Require Import Base Containers PageTree.
From Verif.Spec Require Import PageTree.
From Verif.Proof Require Import Tac PageTree.
Import ListNotations.
Local Open Scope N_scope.

(** Page i of any finite tree with right counts, of any shape and depth, is the i-th leaf. *)
Theorem C39_page : forall h root l, pages_of h root l -> is_pages h root -> counts_right h root ->
  N.of_nat (length l) + 1 < 2 ^ 63 ->
  exists F, forall fuel, (F <= fuel)%nat -> forall i p, nth_error l (N.to_nat i - 1) = Some p -> 1 <= i -> get_page fuel h root i = Ok p.
Proof.
  intros h root l Hp Hr Hc Hl. change (2 ^ 63) with 9223372036854775808 in Hl.
  destruct (proj1 (page_search h) root l Hp Hr Hc) as [F HF]. exists F. intros fuel Hf i p Hn Hi.
  assert (N.to_nat i - 1 < length l)%nat by (apply nth_error_Some; congruence).
  unfold get_page. rewrite (proj2 (N.ltb_ge _ _)) by lia. rewrite HF by (unfold len; lia). unfold found.
  replace (N.to_nat (i - 1)) with (N.to_nat i - 1)%nat by lia. rewrite Hn. reflexivity.
Qed.

(** Numbers outside 1..count raise an error. *)
Theorem C39_out_of_range : forall h root l, pages_of h root l -> is_pages h root -> counts_right h root ->
  N.of_nat (length l) + 1 < 2 ^ 63 ->
  exists F, forall fuel, (F <= fuel)%nat -> forall i, i < 2 ^ 64 -> i = 0 \/ N.of_nat (length l) < i -> get_page fuel h root i = Throw EGeneral.
Proof.
  intros h root l Hp Hr Hc Hl. change (2 ^ 63) with 9223372036854775808 in *.
  destruct (proj1 (page_search h) root l Hp Hr Hc) as [F HF]. exists F. intros fuel Hf i Hi Ho. change (2 ^ 64) with 18446744073709551616 in *.
  unfold get_page. destruct (i <? 1) eqn:E; [reflexivity|]. rewrite HF by (unfold len; lia). unfold found.
  rewrite (proj2 (nth_error_None _ _)) by lia. reflexivity.
Qed.

(** The number of pages that is reported is the number of leaves. *)
Theorem C39_count : forall h root l, pages_of h root l -> is_pages h root -> counts_right h root ->
  N.of_nat (length l) < 2 ^ 63 -> page_count h root = Ok (N.of_nat (length l)).
Proof.
  intros h root l Hp (c & ks & par & E) Hc Hl. change (2 ^ 63) with 9223372036854775808 in *.
  unfold page_count, tree_at. rewrite E. cbn [rbind fst]. rewrite (Hc root c (Some ks) par l (be_refl h root) E Hp).
  apply count_read. exact Hl.
Qed.

(** The heaps of the examples: the root 1 has the kids 2 and 5, node 2 has the pages 3 and 4; 6 is a page that is not in the tree. *)
Definition nested : pheap := fun n =>
  if n =? 1 then Some (Tree (Some 3%Z) (Some [2; 5]) None)
  else if n =? 2 then Some (Tree (Some 2%Z) (Some [3; 4]) (Some 1))
  else if n <? 7 then Some (Page None) else None.

Example C39_case : pages_of nested 1 [3; 4; 5] /\ is_pages nested 1 /\ counts_right nested 1 /\
  get_page 3 nested 1 1 = Ok 3 /\ get_page 3 nested 1 2 = Ok 4 /\ get_page 3 nested 1 3 = Ok 5 /\ get_page 3 nested 1 4 = Throw EGeneral.
Proof.
  destruct (check_ok 5 nested 1 [3; 4; 5] eq_refl) as [H1 H2]. split; [exact H1|]. split; [do 3 eexists; reflexivity|].
  split; [exact H2|]. vm_compute. auto.
Qed.

(** With a wrong Count somewhere another page is returned, and a page of the tree cannot be reached at all. *)
Definition miscounted : pheap := fun n =>
  if n =? 1 then Some (Tree (Some 3%Z) (Some [2; 5]) None)
  else if n =? 2 then Some (Tree (Some 1%Z) (Some [3; 4]) (Some 1))
  else if n <? 7 then Some (Page None) else None.
Theorem C39_wrong_count_refuted : exists h root l, pages_of h root l /\ is_pages h root /\ counts_there h root /\ In 4 l /\
  forall fuel, (2 <= fuel)%nat -> get_page fuel h root 2 <> Ok (nth 1 l 0) /\
    (forall i, i < 2 ^ 63 -> get_page fuel h root i <> Ok 4).
Proof.
  exists miscounted, 1, [3; 4; 5]. split; [|split; [|split; [|split]]].
  - eapply po_tree; [reflexivity|]. change [3; 4; 5] with ([3; 4] ++ [5]). constructor.
    + eapply po_tree; [reflexivity|]. apply pages_all_flat. repeat (apply Forall_cons; [eexists; reflexivity|]). apply Forall_nil.
    + change [5] with ([5] ++ []). constructor; [eapply po_page; reflexivity|constructor].
  - do 3 eexists. reflexivity.
  - intros n c ks par _ E. unfold miscounted in E. destruct (n =? 1); [congruence|]. destruct (n =? 2); [congruence|]. destruct (n <? 7); congruence.
  - cbn. auto.
  - intros fuel Hf. destruct fuel as [|[|f]]; [lia|lia|]. split; [vm_compute; discriminate|].
    intros i Hi. change (2 ^ 63) with 9223372036854775808 in Hi. unfold get_page. destruct (i <? 1) eqn:E1; [discriminate|].
    cbn [page_internal tree_at miscounted N.eqb Pos.eqb rbind snd kids_of page_loop node_at N.ltb N.compare Pos.compare Pos.compare_cont].
    change (size_of_count (Some 1%Z)) with (Ok 1). cbn [rbind]. change (wadd 1 1) with 2.
    destruct (2 <=? i) eqn:E2.
    + cbn [node_at miscounted N.eqb Pos.eqb N.ltb N.compare Pos.compare Pos.compare_cont rbind].
      change (node_at miscounted 5) with (Ok (Page None)). cbn [rbind]. cif; intros X; discriminate X.
    + assert (i = 1) as -> by lia. vm_compute. discriminate.
Qed.

(** A node that is its own kid makes the search run forever. *)
Definition circular : pheap := fun n => if n =? 1 then Some (Tree (Some 1%Z) (Some [1]) None) else None.
Theorem C39_cycle_refuted : forall fuel, get_page fuel circular 1 1 = NoFuel.
Proof.
  intros fuel. unfold get_page. change (1 <? 1) with false. cbv iota. induction fuel as [|f IH]; [reflexivity|].
  cbn [page_internal]. change (tree_at circular 1) with (Ok (Some 1%Z, Some [1])). cbn [rbind snd kids_of page_loop].
  change (node_at circular 1) with (Ok (Tree (Some 1%Z) (Some [1]) None)). cbn [rbind].
  change (size_of_count (Some 1%Z)) with (Ok 1). cbn [rbind kids_of]. change (wadd 1 1 <=? 1) with false. cbv iota. cbn [rbind].
  change (has_tree_childs circular [1]) with (Ok true). cbn [rbind]. exact IH.
Qed.

(** Appending works for trees of any shape: the new page is the last one, the others stay where they are, all counts are right
    afterwards even if they were wrong before, the parent of the new page is the root, and no other object is touched, except for the
    Kids of the root and the Counts of inner nodes. *)
Theorem C40_append : forall h root c ks par l p,
  h root = Some (Tree c (Some ks) par) -> pages_of h root l -> counts_there h root -> is_page h p ->
  N.of_nat (length l) + 1 < 2 ^ 63 -> N.of_nat (length ks) + 1 < 2 ^ 63 ->
  exists F h', (forall fuel, (F <= fuel)%nat -> append_page fuel h root p = (h', Ok tt)) /\
    pages_of h' root (l ++ [p]) /\ counts_right h' root /\ h' p = Some (Page (Some root)) /\
    (exists c', h' root = Some (Tree (Some c') (Some (ks ++ [p])) par)) /\
    (forall m, m <> p -> ~ below h root m -> h' m = h m) /\
    (forall m, m <> p -> m <> root -> h' m = h m \/ exists c0 ks0 par0 c', h m = Some (Tree (Some c0) ks0 par0) /\ h' m = Some (Tree (Some c') ks0 par0)).
Proof.
  intros h root c ks par l p E Hp Ht Hpp Hl Hk. change (2 ^ 63) with 9223372036854775808 in *.
  destruct c as [c|]; [|exfalso; exact (Ht root None _ _ (be_refl h root) E eq_refl)].
  destruct (pages_of_kids _ _ _ _ _ _ E Hp) as (ks' & [= <-] & Ha).
  destruct (insert_ok h root c ks [] par l [] p) as (F & h' & Hf & [E1 E2 E3 E4] & Hpar & Ho & Hfr).
  { rewrite app_nil_r. assumption. } { assumption. } { constructor. } { assumption. } { assumption. }
  { rewrite app_nil_r. exact Hl. } { rewrite app_nil_r. exact Hk. }
  destruct E3 as (c' & par' & par0 & c0 & ks0 & X1 & X2 & X3). rewrite E in X1. injection X1 as _ _ <-. subst par'.
  exists F, h'. split; [|split; [assumption|split; [assumption|split; [assumption|split; [eauto|split; assumption]]]]]. intros fuel Hfu. rewrite (append_insert fuel h root _ _ _ p E Hk). apply Hf. assumption.
Qed.

(** Inserting puts the page before the n-th kid of the root, whatever is below the kids; that is the n-th page when the kids before it
    are pages.  Missing from the full claim: inner nodes among the kids, see C40_insert_refuted. *)
Theorem C40_insert_partial : forall h root c ks1 ks2 par l2 p i,
  h root = Some (Tree c (Some (ks1 ++ ks2)) par) -> Forall (is_page h) ks1 -> pages_of_all h ks2 l2 -> counts_there h root -> is_page h p ->
  N.to_nat i = (length ks1 + 1)%nat -> N.of_nat (length (ks1 ++ l2)) + 1 < 2 ^ 63 -> N.of_nat (length (ks1 ++ ks2)) + 1 < 2 ^ 63 ->
  exists F h', (forall fuel, (F <= fuel)%nat -> insert_page fuel h root p i = (h', Ok tt)) /\
    pages_of h root (ks1 ++ l2) /\ pages_of h' root (insert_at (ks1 ++ l2) (N.to_nat i) p) /\ counts_right h' root /\ h' p = Some (Page (Some root)) /\
    (forall m, m <> p -> ~ below h root m -> h' m = h m).
Proof.
  intros h root c ks1 ks2 par l2 p i E H1 H2 Ht Hpp Hi Hl Hk. change (2 ^ 63) with 9223372036854775808 in *.
  destruct c as [c|]; [|exfalso; exact (Ht root None _ _ (be_refl h root) E eq_refl)].
  apply pages_all_flat in H1.
  destruct (insert_ok h root c ks1 ks2 par ks1 l2 p E H1 H2 Ht Hpp Hl Hk) as (F & h' & Hf & [E1 E2 E3 E4] & Hpar & Ho & _).
  exists F, h'. split; [|split; [|split; [|auto]]].
  - intros fuel Hfu. replace i with (len ks1 + 1) by (unfold len; lia). auto.
  - econstructor; [exact E|]. apply pages_all_app; assumption.
  - rewrite Hi. unfold insert_at. replace (length ks1 + 1 - 1)%nat with (length ks1) by lia.
    rewrite firstn_app, skipn_app, firstn_all, skipn_all, PeanoNat.Nat.sub_diag. cbn [firstn skipn app]. rewrite app_nil_r. assumption.
Qed.

(** Removing drops the n-th kid of the root; that is the n-th page when it and the kids before it are pages. *)
Theorem C40_remove_partial : forall h root c ks1 k ks2 par l2 i,
  h root = Some (Tree c (Some (ks1 ++ k :: ks2)) par) -> Forall (is_page h) ks1 -> is_page h k -> pages_of_all h ks2 l2 -> counts_there h root ->
  N.to_nat i = (length ks1 + 1)%nat -> N.of_nat (length (ks1 ++ k :: l2)) < 2 ^ 63 -> N.of_nat (length (ks1 ++ k :: ks2)) < 2 ^ 63 ->
  exists F h', (forall fuel, (F <= fuel)%nat -> remove_page fuel h root i = (h', Ok tt)) /\
    pages_of h root (ks1 ++ k :: l2) /\ pages_of h' root (remove_at (ks1 ++ k :: l2) (N.to_nat i)) /\ counts_right h' root /\
    (forall m, ~ below h root m -> h' m = h m).
Proof.
  intros h root c ks1 k ks2 par l2 i E H1 Hk1 H2 Ht Hi Hl Hk. change (2 ^ 63) with 9223372036854775808 in *.
  destruct c as [c|]; [|exfalso; exact (Ht root None _ _ (be_refl h root) E eq_refl)].
  apply pages_all_flat in H1.
  assert (Hp : pages_of h root (ks1 ++ k :: l2)).
  { econstructor; [exact E|]. apply pages_all_app; [assumption|]. change (k :: l2) with ([k] ++ l2).
    destruct Hk1 as [pk Ek]. constructor; [econstructor; eassumption|assumption]. }
  assert (Hr : forall (A : Type) (a b : list A) (x : A), firstn (length a) (a ++ x :: b) ++ skipn (length a + 1) (a ++ x :: b) = a ++ b).
  { intros A a b x. rewrite firstn_app, skipn_app, firstn_all, PeanoNat.Nat.sub_diag. cbn [firstn]. rewrite app_nil_r.
    rewrite skipn_all2 by lia. replace (length a + 1 - length a)%nat with 1%nat by lia. reflexivity. }
  destruct (kids_ok h root c (ks1 ++ k :: ks2) (ks1 ++ ks2) par _ (ks1 ++ l2) E Hp Ht) as (F & h' & Hf & [E1 E2 E3 E4] & Ho).
  { intros x Hx. apply in_app_or in Hx. apply in_or_app. cbn [In]. tauto. }
  { apply pages_all_app; assumption. }
  { rewrite app_length in *. cbn [length] in Hl. unfold len. rewrite app_length. lia. }
  exists F, h'. split; [|split; [exact Hp|split; [|auto]]].
  - intros fuel Hfu. unfold remove_page, kids_internal. rewrite E. rewrite arr_remove_in.
    + unfold remove_at. rewrite Hi. replace (length ks1 + 1 - 1)%nat with (length ks1) by lia. rewrite Hr. apply Hf. assumption.
    + rewrite app_length in Hk. unfold len. rewrite app_length. cbn [length] in *. lia.
    + exact Hk.
  - rewrite Hi. unfold remove_at. replace (length ks1 + 1 - 1)%nat with (length ks1) by lia. rewrite Hr. assumption.
Qed.

(** Every history of calls on a document whose pages all hang from the root (what Append produces in a new document): the
    sequence of pages is what the calls say, the count and every page number agree with it, insertions outside the document
    are refused.  A removal outside the document leaves it as it is, but is reported as a success. *)
Lemma step_flat : forall h root l o, flat h root l -> good_call h o -> N.of_nat (length l) + 1 < 9223372036854775808 ->
  exists F h', (forall fuel, (F <= fuel)%nat -> page_step fuel root h o =
                  (h', match o with PRemove _ => Ok tt | _ => if snd (edit l o) then Ok tt else Throw EGeneral end)) /\
    flat h' root (fst (edit l o)) /\ (forall m, is_page h m -> is_page h' m) /\ (snd (edit l o) = true -> counts_right h' root) /\
    (counts_right h root -> counts_right h' root).
Proof.
  intros h root l o Hfl Hg Hl. pose proof (flat_pages _ _ _ Hfl) as Hp. pose proof (flat_there _ _ _ Hfl) as Ht.
  pose proof Hfl as (c & par & E & Ha). assert (Hin : is_pages h root) by (do 3 eexists; exact E).
  assert (INS : forall p i, is_page h p -> 1 <= i <= N.of_nat (length l) + 1 ->
    exists F h', (forall fuel, (F <= fuel)%nat -> insert_page fuel h root p i = (h', Ok tt)) /\
      flat h' root (insert_at l (N.to_nat i) p) /\ (forall m, is_page h m -> is_page h' m) /\ counts_right h' root).
  { intros p i Hpp Hi. set (k := (N.to_nat i - 1)%nat).
    rewrite <- (firstn_skipn k l) in E. rewrite <- (firstn_skipn k l) in Ha. apply Forall_app in Ha. destruct Ha as [Ha1 Ha2].
    destruct (insert_ok h root c (firstn k l) (skipn k l) par (firstn k l) (skipn k l) p E) as (F & h' & Hf & He & Hpar & Ho & _).
    { apply pages_all_flat. assumption. } { apply pages_all_flat. assumption. } { assumption. } { assumption. }
    { rewrite firstn_skipn. exact Hl. } { rewrite firstn_skipn. exact Hl. }
    exists F, h'. split; [|split; [|split]].
    - intros fuel Hfu. replace i with (len (firstn k l) + 1); [auto|]. unfold len. rewrite firstn_length. lia.
    - unfold insert_at. fold k. apply (flat_edited h h' root l); [assumption|assumption|]. apply Forall_app. split; [assumption|]. apply Forall_cons; assumption.
    - intros m Hm. apply (page_shape h h' root); [apply He|assumption|assumption].
    - apply He. }
  destruct o as [p i|p|i]; cbn [page_step edit fst snd good_call] in *.
  - destruct Hg as [Hg1 Hg2]. destruct ((1 <=? i) && (i <=? N.of_nat (length l) + 1))%bool eqn:Ei; cbn [fst snd].
    + destruct (INS p i Hg1) as (F & h' & H1 & H2 & H3 & H4); [lia|]. exists F, h'. auto 8.
    + exists O, h. split; [|split; [assumption|split; [auto|split; [discriminate|auto]]]].
      intros fuel _. apply (insert_outside fuel h root _ _ _ p i E); [exact Hl|assumption|unfold len; lia].
  - destruct (INS p (N.of_nat (length l) + 1) Hg) as (F & h' & H1 & H2 & H3 & H4); [lia|]. exists F, h'.
    split; [|split; [|auto 8]].
    + intros fuel Hfu. rewrite (append_insert fuel h root _ _ _ p E Hl). apply H1. assumption.
    + unfold insert_at in H2. replace (N.to_nat (N.of_nat (length l) + 1) - 1)%nat with (length l) in H2 by lia.
      rewrite firstn_all, skipn_all in H2. exact H2.
  - destruct ((1 <=? i) && (i <=? N.of_nat (length l)))%bool eqn:Ei; cbn [fst snd].
    + destruct (kids_ok h root c l (remove_at l (N.to_nat i)) par l (remove_at l (N.to_nat i)) E Hp Ht) as (F & h' & Hf & He & Ho).
      { intros x Hx. unfold remove_at in Hx. apply in_app_or in Hx. destruct Hx as [Hx|Hx].
        - rewrite <- (firstn_skipn (N.to_nat i - 1) l). apply in_or_app. auto.
        - rewrite <- (firstn_skipn (N.to_nat i) l). apply in_or_app. auto. }
      { apply pages_all_flat. unfold remove_at. apply Forall_app. split.
        - rewrite <- (firstn_skipn (N.to_nat i - 1) l) in Ha. apply Forall_app in Ha. apply Ha.
        - rewrite <- (firstn_skipn (N.to_nat i) l) in Ha. apply Forall_app in Ha. apply Ha. }
      { unfold len, remove_at. rewrite app_length, firstn_length, skipn_length. lia. }
      exists F, h'. split; [|split; [|split; [|split]]].
      * intros fuel Hfu. unfold remove_page, kids_internal. rewrite E. rewrite arr_remove_in by (unfold len; lia). apply Hf. assumption.
      * apply (flat_edited h h' root l); [assumption|assumption|]. unfold remove_at. apply Forall_app. split.
        -- rewrite <- (firstn_skipn (N.to_nat i - 1) l) in Ha. apply Forall_app in Ha. apply Ha.
        -- rewrite <- (firstn_skipn (N.to_nat i) l) in Ha. apply Forall_app in Ha. apply Ha.
      * intros m Hm. apply (page_shape h h' root); [apply He|assumption|assumption].
      * intros _. apply He.
      * intros _. apply He.
    + destruct (kids_ok h root c l l par l l E Hp Ht) as (F & h' & Hf & He & Ho); [apply incl_refl|apply pages_all_flat; assumption|unfold len; lia|].
      exists F, h'. split; [|split; [|split; [|split]]].
      * intros fuel Hfu. unfold remove_page, kids_internal. rewrite E. rewrite arr_remove_out by (unfold len; lia). apply Hf. assumption.
      * apply (flat_edited h h' root l); assumption.
      * intros m Hm. apply (page_shape h h' root); [apply He|assumption|assumption].
      * intros _. apply He.
      * intros _. apply He.
Qed.

Lemma edit_length : forall l o, (length (fst (edit l o)) <= length l + 1)%nat.
Proof.
  intros l [p i|p|i]; cbn [edit]; [| |].
  - destruct (_ && _)%bool; cbn [fst]; [|lia]. unfold insert_at. rewrite app_length, firstn_length. cbn [length]. rewrite skipn_length. lia.
  - cbn [fst]. rewrite app_length. cbn [length]. lia.
  - destruct (_ && _)%bool; cbn [fst]; [|lia]. unfold remove_at. rewrite app_length, firstn_length, skipn_length. lia.
Qed.

Lemma good_kept : forall h h' o, (forall m, is_page h m -> is_page h' m) -> good_call h o -> good_call h' o.
Proof. intros h h' [p i|p|i] H; cbn [good_call]; intuition. Qed.

Theorem C40_history_partial : forall os h root l, flat h root l -> counts_right h root -> Forall (good_call h) os ->
  N.of_nat (length l + length os) + 1 < 2 ^ 63 ->
  exists F h', (forall fuel, (F <= fuel)%nat -> fst (page_run fuel root h os) = h') /\
    flat h' root (edits l os) /\ pages_of h' root (edits l os) /\ counts_right h' root /\
    page_count h' root = Ok (N.of_nat (length (edits l os))) /\
    (forall fuel, (F <= fuel)%nat -> forall i p, nth_error (edits l os) (N.to_nat i - 1) = Some p -> 1 <= i -> get_page fuel h' root i = Ok p).
Proof.
  intros os. change (2 ^ 63) with 9223372036854775808. induction os as [|o os IH]; intros h root l Hf Hc Hg Hl.
  - pose proof (flat_pages _ _ _ Hf) as Hp. assert (Hin : is_pages h root) by (destruct Hf as (c & par & E & _); do 3 eexists; exact E).
    destruct (C39_page h root l Hp Hin Hc) as [F HF]. { change (2 ^ 63) with 9223372036854775808. cbn [length] in Hl. lia. }
    exists F, h. split; [reflexivity|]. split; [exact Hf|]. split; [exact Hp|]. split; [exact Hc|]. split; [|exact HF].
    apply C39_count; [assumption|assumption|assumption|]. change (2 ^ 63) with 9223372036854775808. cbn [length edits fold_left] in *. lia.
  - apply Forall_cons_iff in Hg. destruct Hg as [Hg1 Hg2]. cbn [length] in Hl.
    destruct (step_flat h root l o Hf Hg1) as (F1 & h1 & H1 & Hf1 & Hk & _ & Hc1); [lia|].
    pose proof (edit_length l o) as Hle.
    destruct (IH h1 root (fst (edit l o)) Hf1 (Hc1 Hc)) as (F2 & h2 & H2 & Hr).
    { eapply Forall_impl; [|exact Hg2]. intros a. apply good_kept. assumption. } { lia. }
    exists (Nat.max F1 F2), h2. cbn [edits fold_left]. fold (edits (fst (edit l o)) os). split.
    + intros fuel Hfu. cbn [page_run]. rewrite H1 by lia. specialize (H2 fuel). destruct (page_run fuel root h1 os) as [h3 a]. cbn [fst] in *. apply H2. lia.
    + destruct Hr as (R1 & R2 & R3 & R4 & R5). split; [exact R1|]. split; [exact R2|]. split; [exact R3|]. split; [exact R4|].
      intros fuel Hfu. apply R5. lia.
Qed.

(** A call that cannot be carried out: insertions are refused and change nothing, whatever the tree. *)
Theorem C40_insert_outside : forall fuel h root c ks par p i, h root = Some (Tree c (Some ks) par) -> N.of_nat (length ks) + 1 < 2 ^ 63 ->
  i < 2 ^ 64 -> i = 0 \/ N.of_nat (length ks) + 1 < i -> insert_page fuel h root p i = (h, Throw EGeneral).
Proof.
  intros fuel h root c ks par p i E Hk Hi Ho. change (2 ^ 63) with 9223372036854775808 in *. change (2 ^ 64) with 18446744073709551616 in *.
  apply (insert_outside fuel h root _ _ _ p i E Hk Hi). unfold len. lia.
Qed.

(** Refuted: in a tree with inner nodes a page inserted at 2 becomes page 3, and one that may be inserted (at the end) is refused. *)
Theorem C40_insert_refuted : exists h root p l, pages_of h root l /\ is_pages h root /\ counts_right h root /\ is_page h p /\
  (forall fuel, (3 <= fuel)%nat -> exists h', insert_page fuel h root p 2 = (h', Ok tt) /\
     ~ pages_of h' root (insert_at l 2 p) /\ pages_of h' root (insert_at l 3 p)) /\
  (forall fuel, insert_page fuel h root p (N.of_nat (length l) + 1) = (h, Throw EGeneral)).
Proof.
  exists nested, 1, 6, [3; 4; 5]. destruct (check_ok 5 nested 1 [3; 4; 5] eq_refl) as [H1 H2].
  split; [exact H1|]. split; [do 3 eexists; reflexivity|]. split; [exact H2|]. split; [eexists; reflexivity|]. split.
  - intros fuel Hf. destruct (insert_page fuel nested 1 6 2) as [h' r] eqn:E. exists h'.
    destruct fuel as [|[|[|f]]]; [lia|lia|lia|]. cbn in E. injection E as <- <-. split; [reflexivity|].
    match goal with |- ~ pages_of ?h _ _ /\ _ => destruct (check_ok 5 h 1 [3; 4; 6; 5] eq_refl) as [H3 _] end.
    split; [|exact H3]. intros H4. pose proof (proj1 (pages_unique _) _ _ H3 _ H4) as E. vm_compute in E. discriminate.
  - intros fuel. reflexivity.
Qed.

(** Refuted: removing page 1 of a tree with inner nodes removes all the pages of the first inner node, and removing page 3 of the same
    tree removes nothing and reports success. *)
Theorem C40_remove_refuted : exists h root l, pages_of h root l /\ is_pages h root /\ counts_right h root /\ length l = 3%nat /\
  (forall fuel, (3 <= fuel)%nat -> exists h', remove_page fuel h root 1 = (h', Ok tt) /\ pages_of h' root (skipn 2 l)) /\
  (forall fuel, (3 <= fuel)%nat -> exists h', remove_page fuel h root 3 = (h', Ok tt) /\ pages_of h' root l).
Proof.
  exists nested, 1, [3; 4; 5]. destruct (check_ok 5 nested 1 [3; 4; 5] eq_refl) as [H1 H2].
  split; [exact H1|]. split; [do 3 eexists; reflexivity|]. split; [exact H2|]. split; [reflexivity|]. split.
  - intros fuel Hf. destruct (remove_page fuel nested 1 1) as [h' r] eqn:E. exists h'.
    destruct fuel as [|[|[|f]]]; [lia|lia|lia|]. cbn in E. injection E as <- <-. split; [reflexivity|].
    match goal with |- pages_of ?h _ _ => apply (check_ok 5 h 1 [5] eq_refl) end.
  - intros fuel Hf. destruct (remove_page fuel nested 1 3) as [h' r] eqn:E. exists h'.
    destruct fuel as [|[|[|f]]]; [lia|lia|lia|]. cbn in E. injection E as <- <-. split; [reflexivity|].
    match goal with |- pages_of ?h _ _ => apply (check_ok 5 h 1 [3; 4; 5] eq_refl) end.
Qed.

(** A concrete history: an empty document, three pages appended, one inserted in front, page 2 removed. *)
Definition empty_doc : pheap := fun n => if n =? 1 then Some (Tree (Some 0%Z) (Some []) None) else if n <? 9 then Some (Page None) else None.
Example C40_case : flat empty_doc 1 [] /\ counts_right empty_doc 1 /\
  Forall (good_call empty_doc) [PAppend 2; PAppend 3; PAppend 4; PInsert 5 1; PRemove 2; PRemove 9; PInsert 6 7] /\
  edits [] [PAppend 2; PAppend 3; PAppend 4; PInsert 5 1; PRemove 2; PRemove 9; PInsert 6 7] = [5; 3; 4].
Proof.
  split; [do 2 eexists; split; [reflexivity|constructor]|].
  split; [apply (check_ok 3 empty_doc 1 [] eq_refl)|]. split; [|reflexivity].
  repeat (apply Forall_cons; [cbn [good_call]; try split; try (eexists; reflexivity); reflexivity|]). apply Forall_nil.
Qed.

Print Assumptions C39_page.
Print Assumptions C39_out_of_range.
Print Assumptions C39_count.
Print Assumptions C39_wrong_count_refuted.
Print Assumptions C39_cycle_refuted.
Print Assumptions C40_append.
Print Assumptions C40_insert_partial.
Print Assumptions C40_remove_partial.
Print Assumptions C40_history_partial.
Print Assumptions C40_insert_outside.
Print Assumptions C40_insert_refuted.
Print Assumptions C40_remove_refuted.

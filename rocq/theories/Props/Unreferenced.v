(** C29: removing unreferenced objects. *)
From Coq Require Import List NArith ZArith Bool Lia String.
From Verif.Model Require Import Base SMap Object Xref Chain Merge Unreferenced.
From Verif.Spec Require Import Merge Unreferenced.
From Verif.Proof Require Import Tac.
From Verif.Proof Require Unreferenced.
Import ListNotations.
Local Open Scope N_scope.

(** In a document where every number is listed once (what merging leaves), whatever the order of the hash table: the sections keep their
    trailers and free entries, every object that can be reached keeps its entry and the object in it, and every other one is removed. *)
Theorem C29_exactly_reachable : forall order c c', numbers_distinct c -> lists_numbers c order -> remove_unreferenced order c = Ok c' ->
  keeps (fun e => (exists next, xdata e = KFree next) \/ reachable c (xnum e)) c c'.
Proof.
  intros order c c' Hd Ho H. unfold remove_unreferenced in H. apply rbind_ok in H. destruct H as (r & Er & H). apply rbind_ok in H. destruct H as (used & Eu & H). inversion H; subst. clear H.
  destruct (Proof.Unreferenced.roots_spec c c r Hd (incl_refl _) Er) as (R1 & R2 & R3 & R4).
  destruct (Proof.Unreferenced.mark_all_spec c Hd (S (List.length order)) order r [] R1 ltac:(intros ? []) ltac:(constructor) ltac:(intros ? []) ltac:(cbn; lia)) as (u & E1 & U1 & U2 & U3).
  rewrite Eu in E1. inversion E1; subst u. clear E1.
  destruct (Proof.Unreferenced.remove_unused_keeps order used c Hd) as [K _].
  apply (Proof.Unreferenced.keeps_ext _ _ _ _) with (2 := K). intros s [e o] Hs Hp. cbn [fst].
  assert (Hord : ~ In (xnum e) order <-> exists next, xdata e = KFree next).
  { rewrite (Ho (xnum e)). split.
    - intros Hn. destruct (xdata e) as [nx| |] eqn:E; [exists nx; reflexivity|exfalso|exfalso]; apply Hn; exists s, e, o; rewrite E; repeat split; try assumption; discriminate.
    - intros (nx & E) (s2 & e2 & o2 & Hs2 & Hp2 & En & Hf). assert (G : (e2, o2) = (e, o)).
      { apply (Proof.Unreferenced.distinct_same (Proof.Unreferenced.items c)); [exact Hd|apply Proof.Unreferenced.in_items; exists s2; auto|apply Proof.Unreferenced.in_items; exists s; auto|exact En]. }
      inversion G; subst. exact (Hf nx E). }
  assert (Hall : forall n, reachable c n -> In n used).
  { induction 1 as [s1 n g o1 A B C D|s1 n A B C|s1 e1 o1 n i A B C D|m gm o1 n g o2 A IH B C D].
    - apply U2. eapply R2; eauto.
    - apply U2. eapply R3; eauto.
    - apply U2. eapply R4; eauto.
    - destruct B as (s1 & e1 & Hs1 & Hin1 & En & Eg & Hu).
      assert (Hut : used_type e1 = true) by (unfold used_type, describes_object in *; destruct (xdata e1); tauto || reflexivity).
      assert (Hm : In m order). { apply Ho. exists s1, e1, o1. repeat split; try assumption. apply Proof.Unreferenced.used_type_spec. exact Hut. }
      destruct (first_item c m) as [[e3 o3]|] eqn:Ef.
      + assert (F := Proof.Unreferenced.first_item_spec _ _ _ Ef). destruct F as [F1 F2].
        assert (G : (e3, o3) = (e1, o1)).
        { apply (Proof.Unreferenced.distinct_same (Proof.Unreferenced.items c)); [exact Hd|exact F1|apply Proof.Unreferenced.in_items; exists s1; auto|cbn [fst] in *; congruence]. }
        inversion G; subst e3 o3. apply (U3 m Hm IH (e1, o1) Ef). unfold reference_of. cbn [fst snd]. apply Proof.Unreferenced.in_use_describes in Hu. rewrite Hu.
        apply Proof.Unreferenced.marks_spec; [exact Hd|]. exists g. split; [exact C|]. exists o2. exact D.
      + exfalso. apply (Proof.Unreferenced.first_item_none c m (e1, o1) Ef); [apply Proof.Unreferenced.in_items; exists s1; auto|exact Hut|exact En]. }
  rewrite Hord. split; (intros [H|H]; [left; exact H|right]); [apply U1; exact H|apply Hall; exact H].
Qed.

(** Every reference of the document that led to an object before still leads to the same one. *)
Theorem C29_references_resolve : forall order c c' n g o, numbers_distinct c -> lists_numbers c order -> remove_unreferenced order c = Ok c' ->
  has_object c n g o ->
  (exists s, In s c' /\ u_kind s = STable /\ mentions n g (ODict (u_trailer s))) \/ (exists m gm o', has_object c' m gm o' /\ mentions n g o') ->
  has_object c' n g o.
Proof.
  intros order c c' n g o Hd Ho H Hobj Hm. assert (K := C29_exactly_reachable _ _ _ Hd Ho H).
  assert (Hback := fun s' => Proof.Unreferenced.keeps_back _ c c' s' K). cbv beta in Hback.
  assert (Hr : reachable c n).
  { destruct Hm as [(s' & Hs' & Hk & Hm)|(m & gm & o' & (s' & e' & Hs' & Hp & En & Eg & Hu) & Hm)].
    - destruct (Hback s' Hs') as (s & Hs & Ek & Et & _). apply (r_trailer c s n g o Hs); [congruence|rewrite <- Et; exact Hm|exact Hobj].
    - destruct (Hback s' Hs') as (s & Hs & _ & _ & Hb). destruct (Hb _ Hp) as [Hin Hk]. cbn [fst] in Hk.
      assert (Hrm : reachable c m). { destruct Hk as [(nx & E)|Hk]; [unfold describes_object in Hu; rewrite E in Hu; destruct Hu|rewrite En in Hk; exact Hk]. }
      apply (r_step c m gm o' n g o Hrm); [exists s, e'; auto|exact Hm|exact Hobj]. }
  destruct Hobj as (s & e & Hs & Hin & En & Eg & Hu).
  destruct (Proof.Unreferenced.keeps_forward _ c c' s (e, o) K Hs Hin) as (s' & Hs' & Hin'); [right; cbn [fst]; rewrite En; exact Hr|]. exists s', e. auto.
Qed.

(** The search always ends; it fails only when an entry names an object stream that the document does not have. *)
Theorem C29_ends : forall order c, numbers_distinct c ->
  (exists c', remove_unreferenced order c = Ok c') \/
  (remove_unreferenced order c = Throw EObjectMissing /\
   exists s e o n i, In s c /\ In (e, o) (u_items s) /\ xdata e = KComp n i /\ forall o', ~ has_object c n 0 o').
Proof.
  intros order c Hd. unfold remove_unreferenced. destruct (Proof.Unreferenced.roots_fail c c) as [(r & Er)|(-> & s & e & o & n & i & Hs & Hin & Ex & Hn)].
  - left. rewrite Er. cbn [rbind]. destruct (Proof.Unreferenced.roots_spec c c r Hd (incl_refl _) Er) as (R1 & _).
    destruct (Proof.Unreferenced.mark_all_spec c Hd (S (List.length order)) order r [] R1 ltac:(intros ? []) ltac:(constructor) ltac:(intros ? []) ltac:(cbn; lia)) as (u & -> & _).
    cbn [rbind]. eexists. reflexivity.
  - right. split; [reflexivity|]. exists s, e, o, n, i. split; [exact Hs|]. split; [exact Hin|]. split; [exact Ex|]. intros o' Ho'.
    assert (G : resolves c n 0 = true) by (apply Proof.Unreferenced.resolves_spec; [exact Hd|exists o'; exact Ho']). unfold resolves in G. rewrite Hn in G. discriminate.
Qed.

(** A document: 1 refers to 2, 2 refers back; 3 and 4 refer to each other but nothing leads to them; 5 does not exist. *)
Definition used_entry (n : N) : xentry := {| xnum := n; xgen := 0; xdata := KUsed 10 true |}.
Definition C29_document : list usection :=
  [{| u_kind := STable; u_self := None;
      u_items := [({| xnum := 0; xgen := 65535; xdata := KFree 0 |}, ONull); (used_entry 1, ODict [(str "Kids", OArr [ORef 2 0; ORef 5 0])]);
                  (used_entry 2, OStream [(str "Parent", ORef 1 0)] [65]); (used_entry 3, OArr [ORef 4 0]); (used_entry 4, ORef 3 0)];
      u_trailer := [(str "Root", ORef 1 0)] |}].
Example C29_case : numbers_distinct C29_document /\ lists_numbers C29_document [4; 2; 3; 1] /\
  exists c', remove_unreferenced [4; 2; 3; 1] C29_document = Ok c' /\ map (fun s => map (fun p => xnum (fst p)) (u_items s)) c' = [[0; 1; 2]].
Proof.
  split; [|split].
  - unfold numbers_distinct. cbn. repeat constructor; cbn; lia.
  - intros n. split.
    + intros H. exists (hd {| u_kind := STable; u_self := None; u_items := []; u_trailer := [] |} C29_document), (used_entry n).
      cbn [In] in H. destruct H as [<-|[<-|[<-|[<-|[]]]]]; eexists; (split; [left; reflexivity|]); cbn [hd C29_document u_items In];
        (split; [|split; [reflexivity|discriminate]]); repeat first [left; reflexivity|right].
    + intros (s & e & o & [<-|[]] & Hin & <- & Hf). cbn [u_items In] in Hin. destruct Hin as [H|[H|[H|[H|[H|[]]]]]]; inversion H; subst; cbn; try tauto.
      exfalso. apply (Hf 0). reflexivity.
  - eexists. split; vm_compute; reflexivity.
Qed.

(** With merging switched off an updated object counts with its oldest state: the updated root names object 2, and object 2 is removed. *)
Theorem C29_updated_object_refuted : exists old new order c',
  In (used_entry 1, ODict [(str "Pages", ORef 2 0)]) (u_items new) /\ In (used_entry 2, OInt 7) (u_items new) /\
  mentions 1 0 (ODict (u_trailer new)) /\ lists_numbers [old; new] order /\
  remove_unreferenced order [old; new] = Ok c' /\ forall o, ~ has_object c' 2 0 o.
Proof.
  exists {| u_kind := STable; u_self := None; u_items := [(used_entry 1, ODict [])]; u_trailer := [(str "Root", ORef 1 0)] |},
    {| u_kind := STable; u_self := None; u_items := [(used_entry 1, ODict [(str "Pages", ORef 2 0)]); (used_entry 2, OInt 7)]; u_trailer := [(str "Root", ORef 1 0)] |}, [1; 2].
  eexists. split; [left; reflexivity|]. split; [right; left; reflexivity|]. split; [apply (m_dict 1 0 _ (str "Root") (ORef 1 0)); [left; reflexivity|constructor]|].
  split; [|split; [vm_compute; reflexivity|]].
  - intros n. split.
    + intros [<-|[<-|[]]]; [eexists; exists (used_entry 1); eexists; split; [left; reflexivity|]; split; [left; reflexivity|]; split; [reflexivity|discriminate]|].
      eexists. exists (used_entry 2). eexists. split; [right; left; reflexivity|]. split; [right; left; reflexivity|]. split; [reflexivity|discriminate].
    + intros (s & e & o & [<-|[<-|[]]] & Hin & <- & _); cbn [u_items In] in Hin; destruct Hin as [H|Hin]; try (inversion H; subst; cbn; tauto); try (destruct Hin; fail).
      destruct Hin as [H|[]]. inversion H; subst. cbn. tauto.
  - intros o (s & e & Hs & Hin & En & _). cbn [In] in Hs. destruct Hs as [<-|[<-|[]]]; cbn [u_items In] in Hin; destruct Hin as [H|[]]; inversion H; subst; discriminate En.
Qed.

Print Assumptions C29_exactly_reachable.
Print Assumptions C29_references_resolve.
Print Assumptions C29_ends.
Print Assumptions C29_updated_object_refuted.

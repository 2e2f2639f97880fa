From Coq Require Import List NArith ZArith Bool Lia String.
From Coq Require Import List.
From Verif.Model Require Import Base SMap Object Containers Entries Kinds.
From Verif.Spec Require Import Kinds.
From Verif.Proof Require Import Tac SMap Containers.
Import ListNotations.
Local Open Scope N_scope.

Lemma beq_same : forall a, beq a a = true.
Proof. intros a. apply beq_true. reflexivity. Qed.
Lemma ok_pair : forall (A B : Type) (a c : A) (b d : B), Ok (a, b) = Ok (c, d) -> a = c /\ b = d.
Proof. intros A B a c b d H. split; congruence. Qed.

Lemma compare_in : forall (K : Type) (l : list (bytes * K)) n k, compare_names l n = Some k -> In (n, k) l.
Proof.
  induction l as [|[c x] l IH]; intros n k H; [discriminate|]. cbn [compare_names] in H. destruct (beq n c) eqn:E.
  - injection H as ->. left. apply beq_true in E. now subst.
  - right. apply IH, H.
Qed.

Ltac table H := apply compare_in in H; cbn [In] in H;
  repeat (destruct H as [H|H]; [apply pair_equal_spec in H; destruct H as [<- <-]|]); try contradiction.

Section P.
Variable heap : N -> obj.
Notation entry_is := (entry_is heap).

Lemma target_stands : forall v, target heap v = stands_for heap v.
Proof. intros [| | | | | | | | | |]; reflexivity. Qed.
Lemma entry_found : forall d k o, entry_is d k o -> exists v, sm_find k d = Some v /\ target heap v = o.
Proof. intros d k o (v & H & E). exists v. split; [exact H|]. rewrite target_stands. exact E. Qed.

Lemma type_is_ok : forall d n, type_is heap d n = Ok tt <-> of_type heap d n.
Proof.
  intros d n. unfold type_is, of_type. split.
  - intros H. destruct (sm_find (str "Type") d) as [v|] eqn:E; [right|left; reflexivity]. exists v. split; [exact E|].
    rewrite <- target_stands. destruct (target heap v); try discriminate. destruct (beq n0 n) eqn:B; [|discriminate]. apply beq_true in B. now subst.
  - intros [H|H]; [rewrite H; reflexivity|]. apply entry_found in H. destruct H as (v & -> & ->). rewrite beq_same. reflexivity.
Qed.
Lemma required_ok : forall d k n, required_name heap d k = Ok n <-> entry_is d k (OName n).
Proof.
  intros d k n. unfold required_name. split.
  - intros H. destruct (sm_find k d) as [v|] eqn:E; [|discriminate]. exists v. split; [exact E|]. rewrite <- target_stands.
    destruct (target heap v); try discriminate. injection H as ->. reflexivity.
  - intros H. apply entry_found in H. destruct H as (v & -> & ->). reflexivity.
Qed.

Lemma kind_ok : forall (K : Type) (table : list (bytes * K)) d ty k,
  (do _ <- type_is heap d ty;; do n <- required_name heap d (str "Subtype");;
   match compare_names table n with Some x => Ok x | None => Throw EGeneral end) = Ok k <->
  of_type heap d ty /\ exists n, entry_is d (str "Subtype") (OName n) /\ compare_names table n = Some k.
Proof.
  intros K table d ty k. split.
  - intros H. apply rbind_ok in H. destruct H as ([] & H1 & H). apply rbind_ok in H. destruct H as (n & H2 & H).
    apply type_is_ok in H1. apply required_ok in H2. split; [exact H1|]. exists n. split; [exact H2|].
    destruct (compare_names table n); [congruence|discriminate].
  - intros [H1 (n & H2 & H3)]. apply type_is_ok in H1. apply required_ok in H2. rewrite H1. cbn [rbind]. rewrite H2. cbn [rbind]. rewrite H3. reflexivity.
Qed.

Lemma value_ok : forall names table k d i, (forall n j, compare_names table n = Some j <-> 0 < j /\ nth_error names (N.to_nat (j - 1)) = Some n) ->
  named_value heap table k d = Ok (Some i) <-> value_is heap names k d i.
Proof.
  intros names table k d i Ht. unfold named_value, value_is. split.
  - intros H. destruct (sm_find k d) as [v|] eqn:E; [|discriminate]. destruct (target heap v) eqn:Ev; try discriminate.
    destruct (compare_names table n) as [j|] eqn:Ec; [|discriminate]. injection H as ->. apply Ht in Ec. exists n. split; [|exact Ec].
    exists v. split; [exact E|]. rewrite <- target_stands. exact Ev.
  - intros (n & He & Hn). apply Ht in Hn. apply entry_found in He. destruct He as (v & -> & ->). rewrite Hn. reflexivity.
Qed.

Lemma explicit_array : forall page kind rest k p, destination_array heap (page :: kind :: rest) = Ok (k, p) ->
  p = page /\ exists n, stands_for heap kind = OName n /\ iso_destination n k.
Proof.
  intros page kind rest k p H. cbn [destination_array] in H. destruct (negb _ && negb _); [discriminate|].
  rewrite target_stands in H. destruct (stands_for heap kind) eqn:E; try discriminate.
  match type of H with match compare_names ?t ?n with _ => _ end = _ => destruct (compare_names t n) as [x|] eqn:Ec end; [|discriminate].
  apply ok_pair in H. destruct H as [<- <-]. split; [reflexivity|]. exists n. split; [reflexivity|]. table Ec; constructor.
Qed.
End P.

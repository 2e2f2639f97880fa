(** The ordered map of Model/SMap.v is a finite map on byte-string keys. *)
From Coq Require Import List NArith ZArith Bool Lia Sorted.
From Verif.Model Require Import Base SMap.
From Verif.Proof Require Import Tac.
Import ListNotations.
Local Open Scope N_scope.

Lemma schar_inj : forall x y, is_byte x -> is_byte y -> schar x = schar y -> x = y.
Proof. intros x y Hx Hy H. unfold is_byte, schar in *. destruct (x <? 128) eqn:?, (y <? 128) eqn:?; lia. Qed.

Lemma ltb_irrefl : forall a, buffer_ltb a a = false.
Proof.
  induction a as [|x a IH]; [reflexivity|]. cbn. replace (schar x <? schar x)%Z with false by lia. exact IH.
Qed.

Lemma ltb_trans : forall a b c, buffer_ltb a b = true -> buffer_ltb b c = true -> buffer_ltb a c = true.
Proof.
  induction a as [|x a IH]; intros [|y b] [|z c] H1 H2; cbn in *; try discriminate; try reflexivity.
  destruct (schar x <? schar y)%Z eqn:E1.
  - destruct (schar y <? schar z)%Z eqn:E2; [replace (schar x <? schar z)%Z with true by lia; reflexivity|].
    destruct (schar z <? schar y)%Z eqn:E3; [discriminate|]. replace (schar x <? schar z)%Z with true by lia. reflexivity.
  - destruct (schar y <? schar x)%Z eqn:E1'; [discriminate|].
    destruct (schar y <? schar z)%Z eqn:E2; [replace (schar x <? schar z)%Z with true by lia; reflexivity|].
    destruct (schar z <? schar y)%Z eqn:E3; [discriminate|].
    replace (schar x <? schar z)%Z with false by lia. replace (schar z <? schar x)%Z with false by lia. eapply IH; eauto.
Qed.

Lemma ltb_asym : forall a b, buffer_ltb a b = true -> buffer_ltb b a = false.
Proof.
  intros a b H. destruct (buffer_ltb b a) eqn:E; [|reflexivity].
  assert (X := ltb_trans _ _ _ H E). rewrite ltb_irrefl in X. discriminate.
Qed.

Lemma ltb_total : forall a b, all_bytes a -> all_bytes b -> buffer_ltb a b = false -> buffer_ltb b a = false -> a = b.
Proof.
  induction a as [|x a IH]; intros [|y b] Ha Hb H1 H2; cbn in *; try discriminate; [reflexivity|].
  inversion Ha; inversion Hb; subst.
  destruct (schar x <? schar y)%Z eqn:E1; [discriminate|]. destruct (schar y <? schar x)%Z eqn:E2; [discriminate|].
  f_equal; [apply schar_inj; auto; lia|apply IH; auto].
Qed.

Section Facts.
Context {V : Type}.
Implicit Types m : smap V.

Definition sm_sorted m : Prop := StronglySorted (fun a b => buffer_ltb (fst a) (fst b) = true) m.
Definition sm_keys_ok m : Prop := Forall (fun e => all_bytes (fst e)) m.

Lemma sm_find_lt_none : forall m k, Forall (fun e => buffer_ltb k (fst e) = true) m -> sm_find k m = None.
Proof. intros [|[k' v'] m] k H; [reflexivity|]. inversion H as [|? ? Hk _]; subst. cbn in *. rewrite Hk. reflexivity. Qed.

Lemma sm_find_in : forall m k v, sm_sorted m -> sm_keys_ok m -> all_bytes k -> (sm_find k m = Some v <-> In (k, v) m).
Proof.
  induction m as [|[k' v'] m IH]; intros k v Hs Hk Hb; cbn; [split; [discriminate|tauto]|].
  inversion Hs as [|? ? Hs' Hall]; inversion Hk as [|? ? Hk' Hks]; subst. cbn in *.
  destruct (buffer_ltb k k') eqn:E1.
  - split; [discriminate|]. intros [E|Hin].
    + inversion E; subst. rewrite ltb_irrefl in E1. discriminate.
    + rewrite Forall_forall in Hall. apply Hall in Hin. cbn in Hin. assert (X := ltb_trans _ _ _ E1 Hin). rewrite ltb_irrefl in X. discriminate.
  - destruct (buffer_ltb k' k) eqn:E2.
    + rewrite IH by auto. split; [auto|]. intros [E|Hin]; [|auto]. inversion E; subst. rewrite ltb_irrefl in E2. discriminate.
    + assert (k = k') by (apply ltb_total; auto). subst k'. split.
      * intros E. inversion E; subst. auto.
      * intros [E|Hin]; [inversion E; reflexivity|]. rewrite Forall_forall in Hall. apply Hall in Hin. cbn in Hin. rewrite ltb_irrefl in Hin. discriminate.
Qed.

Lemma sm_insert_forall : forall (P : bytes * V -> Prop) m k v, P (k, v) -> Forall P m -> Forall P (sm_insert k v m).
Proof.
  intros P m k v Hp. induction m as [|[k' v'] m IH]; intros H; cbn; [auto|]. inversion H; subst.
  destruct (buffer_ltb k k'); [auto|]. destruct (buffer_ltb k' k); auto.
Qed.

Lemma sm_insert_sorted : forall m k v, sm_sorted m -> sm_sorted (sm_insert k v m).
Proof.
  induction m as [|[k' v'] m IH]; intros k v Hs; cbn; [repeat constructor|].
  inversion Hs as [|? ? Hs' Hall]; subst. destruct (buffer_ltb k k') eqn:E1.
  - constructor; [exact Hs|]. constructor; [exact E1|]. eapply Forall_impl; [|exact Hall]. intros [k2 v2] H2. cbn in *. eapply ltb_trans; eauto.
  - destruct (buffer_ltb k' k) eqn:E2; [|exact Hs]. constructor; [apply IH; exact Hs'|].
    apply sm_insert_forall; [exact E2|exact Hall].
Qed.

Lemma sm_insert_keys_ok : forall m k v, sm_keys_ok m -> all_bytes k -> sm_keys_ok (sm_insert k v m).
Proof. intros m k v Hm Hk. apply sm_insert_forall; assumption. Qed.

Lemma sm_find_none_in : forall m k v, sm_sorted m -> sm_keys_ok m -> all_bytes k -> sm_find k m = None -> ~ In (k, v) m.
Proof. intros m k v Hs Hk Hb Hn Hin. apply sm_find_in in Hin; auto. congruence. Qed.

Lemma sm_find_insert : forall m k v k2, sm_sorted m -> sm_keys_ok m -> all_bytes k -> all_bytes k2 ->
  sm_find k2 (sm_insert k v m) =
  match sm_find k2 m with Some w => Some w | None => if list_eq_dec N.eq_dec k2 k then Some v else None end.
Proof.
  induction m as [|[k' v'] m IH]; intros k v k2 Hs Hk Hb Hb2.
  - cbn. destruct (list_eq_dec N.eq_dec k2 k) as [->|Hne]; [rewrite ltb_irrefl; reflexivity|].
    destruct (buffer_ltb k2 k) eqn:E1; [reflexivity|]. destruct (buffer_ltb k k2) eqn:E2; [reflexivity|].
    exfalso. apply Hne. apply ltb_total; auto.
  - inversion Hs as [|? ? Hs' Hall]; inversion Hk as [|? ? Hk' Hks]; subst. cbn [fst] in *. cbn [sm_insert].
    destruct (buffer_ltb k k') eqn:E1.
    + cbn [sm_find]. destruct (list_eq_dec N.eq_dec k2 k) as [->|Hne].
      * rewrite ltb_irrefl, E1. reflexivity.
      * destruct (buffer_ltb k2 k) eqn:E2.
        { rewrite (ltb_trans _ _ _ E2 E1). reflexivity. }
        destruct (buffer_ltb k k2) eqn:E3; [|exfalso; apply Hne; apply ltb_total; auto].
        destruct (buffer_ltb k2 k'); [reflexivity|]. destruct (buffer_ltb k' k2); [|reflexivity]. destruct (sm_find k2 m); reflexivity.
    + destruct (buffer_ltb k' k) eqn:E2.
      * cbn [sm_find]. destruct (buffer_ltb k2 k') eqn:E3.
        { destruct (list_eq_dec N.eq_dec k2 k) as [->|Hne]; [congruence|reflexivity]. }
        destruct (buffer_ltb k' k2) eqn:E4; [|reflexivity]. apply IH; auto.
      * assert (k = k') by (apply ltb_total; auto). subst k'. cbn [sm_find].
        destruct (buffer_ltb k2 k) eqn:E3.
        { destruct (list_eq_dec N.eq_dec k2 k) as [->|Hne]; [congruence|reflexivity]. }
        destruct (buffer_ltb k k2) eqn:E4; [|reflexivity].
        destruct (list_eq_dec N.eq_dec k2 k) as [->|Hne]; [congruence|]. destruct (sm_find k2 m); reflexivity.
Qed.

Lemma sm_remove_forall : forall (P : bytes * V -> Prop) m k, Forall P m -> Forall P (sm_remove k m).
Proof.
  intros P m k. induction m as [|[k' v'] m IH]; intros H; cbn; [auto|]. inversion H; subst.
  destruct (buffer_ltb k k'); [auto|]. destruct (buffer_ltb k' k); auto.
Qed.

Lemma sm_remove_sorted : forall m k, sm_sorted m -> sm_sorted (sm_remove k m).
Proof.
  induction m as [|[k' v'] m IH]; intros k Hs; cbn; [auto|].
  inversion Hs as [|? ? Hs' Hall]; subst. destruct (buffer_ltb k k') eqn:E1; [exact Hs|].
  destruct (buffer_ltb k' k) eqn:E2; [|exact Hs']. constructor; [apply IH; exact Hs'|]. apply sm_remove_forall; exact Hall.
Qed.

Lemma sm_find_remove : forall m k k2, sm_sorted m -> sm_keys_ok m -> all_bytes k -> all_bytes k2 ->
  sm_find k2 (sm_remove k m) = if list_eq_dec N.eq_dec k2 k then None else sm_find k2 m.
Proof.
  induction m as [|[k' v'] m IH]; intros k k2 Hs Hk Hb Hb2.
  - cbn. destruct (list_eq_dec N.eq_dec k2 k); reflexivity.
  - inversion Hs as [|? ? Hs' Hall]; inversion Hk as [|? ? Hk' Hks]; subst. cbn [fst] in *. cbn [sm_remove].
    destruct (buffer_ltb k k') eqn:E1.
    + destruct (list_eq_dec N.eq_dec k2 k) as [->|Hne]; [|reflexivity]. cbn. rewrite E1. reflexivity.
    + destruct (buffer_ltb k' k) eqn:E2.
      * cbn [sm_find]. destruct (buffer_ltb k2 k') eqn:E3.
        { destruct (list_eq_dec N.eq_dec k2 k); reflexivity. }
        destruct (buffer_ltb k' k2) eqn:E4; [apply IH; auto|].
        destruct (list_eq_dec N.eq_dec k2 k) as [->|Hne]; [congruence|reflexivity].
      * assert (k = k') by (apply ltb_total; auto). subst k'. cbn [sm_find].
        destruct (list_eq_dec N.eq_dec k2 k) as [->|Hne].
        { apply sm_find_lt_none. exact Hall. }
        destruct (buffer_ltb k2 k) eqn:E3.
        { apply sm_find_lt_none. eapply Forall_impl; [|exact Hall]. intros e He. cbn in He. eapply ltb_trans; eauto. }
        destruct (buffer_ltb k k2) eqn:E4; [reflexivity|]. exfalso. apply Hne. apply ltb_total; auto.
Qed.

(** sorted lists with the same elements are equal *)
Lemma sm_sorted_unique : forall m1 m2, sm_sorted m1 -> sm_sorted m2 -> (forall e, In e m1 <-> In e m2) -> m1 = m2.
Proof.
  induction m1 as [|e1 m1 IH]; intros m2 H1 H2 Heq.
  - destruct m2 as [|e2 m2]; [reflexivity|]. exfalso. apply (Heq e2). left; reflexivity.
  - destruct m2 as [|e2 m2]; [exfalso; apply (Heq e1); left; reflexivity|].
    inversion H1 as [|? ? H1' A1]; inversion H2 as [|? ? H2' A2]; subst. rewrite Forall_forall in A1, A2.
    assert (e1 = e2).
    { destruct (proj1 (Heq e1) (or_introl eq_refl)) as [E|I1]; [auto|].
      destruct (proj2 (Heq e2) (or_introl eq_refl)) as [E|I2]; [auto|].
      apply A2 in I1. apply A1 in I2. assert (X := ltb_trans _ _ _ I1 I2). rewrite ltb_irrefl in X. discriminate. }
    subst e2. f_equal. apply IH; auto. intros e. split; intros Hin.
    + destruct (proj1 (Heq e) (or_intror Hin)) as [E|I1]; [|exact I1]. subst e. apply A1 in Hin. rewrite ltb_irrefl in Hin. discriminate.
    + destruct (proj2 (Heq e) (or_intror Hin)) as [E|I1]; [|exact I1]. subst e. apply A2 in Hin. rewrite ltb_irrefl in Hin. discriminate.
Qed.
End Facts.

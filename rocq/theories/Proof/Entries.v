From Coq Require Import List NArith ZArith Bool Lia String.
From Coq Require Import List.
From Verif.Model Require Import Base SMap Object Containers Entries.
From Verif.Spec Require Import Entries.
From Verif.Proof Require Import Tac SMap.
Import ListNotations.
Local Open Scope N_scope.

Lemma beq_eq : forall a b, beq a b = true <-> a = b.
Proof. intros a b. unfold beq. destruct (list_eq_dec N.eq_dec a b); split; congruence. Qed.

Definition tidy (m : smap obj) : Prop := sm_sorted m /\ sm_keys_ok m.

Lemma remove_keys_ok : forall (m : smap obj) k, sm_keys_ok m -> sm_keys_ok (sm_remove k m).
Proof. intros. apply sm_remove_forall. assumption. Qed.

Lemma put_entry_spec : forall k v m, tidy m -> all_bytes k ->
  exists m', put_entry k v m = Ok m' /\ tidy m' /\
    forall j, all_bytes j -> sm_find j m' = if beq j k then Some v else sm_find j m.
Proof.
  intros k v m [Hs Hk] Hb. unfold put_entry, dict_remove, sm_contains.
  set (m1 := sm_remove k m).
  assert (S1 : sm_sorted m1) by (apply sm_remove_sorted; exact Hs).
  assert (K1 : sm_keys_ok m1) by (apply remove_keys_ok; exact Hk).
  assert (F1 : forall j, all_bytes j -> sm_find j m1 = if beq j k then None else sm_find j m).
  { intros j Hj. unfold m1. rewrite sm_find_remove by assumption. unfold beq. destruct (list_eq_dec N.eq_dec j k); reflexivity. }
  assert (Heq : forall m2, (forall j, all_bytes j -> sm_find j m2 = if beq j k then None else sm_find j m) -> sm_sorted m2 -> sm_keys_ok m2 ->
    exists m', dict_insert m2 k v false = Ok m' /\ tidy m' /\ forall j, all_bytes j -> sm_find j m' = if beq j k then Some v else sm_find j m).
  { intros m2 F2 S2 K2. unfold dict_insert, sm_contains. rewrite (F2 k Hb).
    replace (beq k k) with true by (symmetry; apply beq_eq; reflexivity). cbn [negb andb].
    exists (sm_insert k v m2). split; [reflexivity|]. split.
    - split; [apply sm_insert_sorted; exact S2|apply sm_insert_keys_ok; assumption].
    - intros j Hj. rewrite sm_find_insert by assumption. rewrite (F2 j Hj). unfold beq.
      destruct (list_eq_dec N.eq_dec j k) as [->|Hne]; [reflexivity|]. destruct (sm_find j m); reflexivity. }
  destruct (sm_find k m) as [w|] eqn:Ef; cbn [fst].
  - apply Heq; assumption.
  - apply Heq; try assumption. intros j Hj. destruct (beq j k) eqn:E; [|reflexivity]. apply beq_eq in E. subst j. exact Ef.
Qed.

Lemma name_bytes : forall e, all_bytes (entry_name e).
Proof. intros []; cbn; repeat (constructor; [vm_compute; reflexivity|]); constructor. Qed.
Lemma contents_bytes : all_bytes (str "Contents").
Proof. cbn; repeat (constructor; [vm_compute; reflexivity|]); constructor. Qed.

Section Run.
Variable heap : N -> obj.

Lemma entry_ok_type : forall e v, seen (do u <- entry_ok heap e v;; Ok (Some v)) = if right_type heap e v then Some (Some v) else None.
Proof.
  intros e v. unfold right_type, entry_ok, rectangle_ok, is_dict, array_of, target.
  change (match v with ORef n _ => heap n | _ => v end) with (meant heap v).
  destruct e; destruct (meant heap v) as [| | | | | | | |l| | ]; try reflexivity.
  do 5 (try destruct l as [|? l]); try reflexivity.
  cbn [List.length Nat.eqb negb forallb]. unfold number, is_number, target.
  repeat match goal with |- context [match ?x with ORef n _ => heap n | _ => _ end] => change (match x with ORef n _ => heap n | _ => x end) with (meant heap x) end.
  repeat match goal with |- context [match meant heap ?x with OInt _ => true | _ => _ end] => destruct (meant heap x); try reflexivity end.
Qed.

Lemma contents_type_model : forall v,
  is_stream heap v || match array_of heap v with Some l => forallb (is_stream heap) l | None => false end = contents_type heap v.
Proof.
  intros v. unfold is_stream, array_of, contents_type, target.
  change (match v with ORef n _ => heap n | _ => v end) with (meant heap v).
  destruct (meant heap v); try reflexivity.
Qed.

(** the dictionary agrees with the abstract page; what is remembered as contents is the entry as long as that is required *)
Definition dict_agrees (p : page) (a : apage) : Prop :=
  tidy (p_dict p) /\ forall k, all_bytes k -> sm_find k (p_dict p) = a k.
Definition memory_agrees (p : page) (a : apage) : Prop :=
  match p_contents p with
  | None => True
  | Some c => a (str "Contents") = Some c /\ contents_type heap c = true
  end.

Lemma step_dict : forall p a o, dict_agrees p a -> dict_agrees (fst (page_step heap p o)) (fst (expected heap a o)).
Proof.
  intros p a o [Ht Hf]. destruct o as [e v|e|n|]; cbn [page_step expected fst].
  - unfold page_set. destruct (put_entry_spec (entry_name e) v (p_dict p) Ht (name_bytes e)) as (m' & E & T' & F'). rewrite E. cbn.
    split; [exact T'|]. intros k Hk. cbn. rewrite (F' k Hk), (Hf k Hk). reflexivity.
  - split; assumption.
  - unfold page_set_contents. destruct (put_entry_spec (str "Contents") (ORef n 0) (p_dict p) Ht contents_bytes) as (m' & E & T' & F'). rewrite E. cbn [rbind fst].
    split; [exact T'|]. intros k Hk. cbn [p_dict]. rewrite (F' k Hk), (Hf k Hk). reflexivity.
  - unfold page_get_contents. destruct (p_contents p); [split; assumption|].
    destruct (dict_try_find (p_dict p) (str "Contents")); [|split; assumption]. cif; [split; assumption|]. cif; split; assumption.
Qed.

Lemma run_dict : forall os p a, dict_agrees p a -> dict_agrees (fst (page_run heap p os)) (fst (expected_run heap a os)).
Proof.
  induction os as [|o t IH]; intros p a H; [exact H|]. cbn [page_run expected_run].
  pose proof (step_dict p a o H) as H1. destruct (page_step heap p o) as [p1 x], (expected heap a o) as [a1 y]. cbn [fst] in H1.
  specialize (IH p1 a1 H1). destruct (page_run heap p1 t), (expected_run heap a1 t). exact IH.
Qed.

Lemma step_memory : forall p a o, dict_agrees p a -> memory_agrees p a ->
  seen (snd (page_step heap p o)) = snd (expected heap a o) /\
  ((p_contents p = None \/ forall n, o <> PSetContents n) -> memory_agrees (fst (page_step heap p o)) (fst (expected heap a o))).
Proof.
  intros p a o [Ht Hf] Hm. destruct o as [e v|e|n|]; cbn [page_step expected fst snd].
  - unfold page_set. destruct (put_entry_spec (entry_name e) v (p_dict p) Ht (name_bytes e)) as (m' & E & T' & F'). rewrite E. cbn [rbind fst snd seen].
    split; [reflexivity|]. intros _. unfold memory_agrees in *. cbn [p_contents]. destruct (p_contents p); [|exact I].
    unfold upd. replace (beq (str "Contents") (page_key e)) with false by (destruct e; vm_compute; reflexivity). exact Hm.
  - split; [|intros _; exact Hm]. unfold page_get, dict_find, sm_contains. rewrite (Hf _ (name_bytes e)).
    change (page_key e) with (entry_name e). destruct (a (entry_name e)) as [v|]; [|reflexivity]. cbn [rbind]. apply entry_ok_type.
  - unfold page_set_contents. destruct (put_entry_spec (str "Contents") (ORef n 0) (p_dict p) Ht contents_bytes) as (m' & E & T' & F'). rewrite E. cbn [rbind fst snd seen].
    split; [reflexivity|]. intros [Hn|Hn]; [|exfalso; exact (Hn n eq_refl)]. unfold memory_agrees. cbn [p_contents]. rewrite Hn. exact I.
  - unfold page_get_contents, dict_try_find. rewrite (Hf _ contents_bytes). unfold memory_agrees in Hm.
    destruct (p_contents p) as [c|] eqn:Ec.
    + destruct Hm as [H1 H2]. rewrite H1. cbn [fst snd seen]. split.
      * unfold contents_type in *. destruct (meant heap c); try discriminate; try reflexivity; rewrite H2; reflexivity.
      * intros _. unfold memory_agrees. rewrite Ec. auto.
    + destruct (a (str "Contents")) as [v|] eqn:Ea; cbn [fst snd seen].
      2:{ split; [reflexivity|]. intros _. unfold memory_agrees. rewrite Ec. exact I. }
      rewrite contents_type_model. unfold is_null, target.
      change (match v with ORef n _ => heap n | _ => v end) with (meant heap v).
      destruct (meant heap v) eqn:Em.
      1:{ cbn [fst snd seen]. split; [reflexivity|]. intros _. unfold memory_agrees. rewrite Ec. exact I. }
      all: destruct (contents_type heap v) eqn:Et; cbn [fst snd seen]; (split; [reflexivity|]); intros _; unfold memory_agrees; cbn [p_contents]; try (rewrite Ec); auto.
Qed.

Lemma no_set_run : forall os p a, dict_agrees p a -> memory_agrees p a -> (forall n, ~ In (PSetContents n) os) ->
  map seen (snd (page_run heap p os)) = snd (expected_run heap a os).
Proof.
  induction os as [|o t IH]; intros p a Hd Hm Hn; [reflexivity|]. cbn [page_run expected_run].
  destruct (step_memory p a o Hd Hm) as [Ha Hm1].
  assert (Hm2 : memory_agrees (fst (page_step heap p o)) (fst (expected heap a o))).
  { apply Hm1. right. intros n ->. apply (Hn n). left. reflexivity. }
  pose proof (step_dict p a o Hd) as Hd1.
  destruct (page_step heap p o) as [p1 x], (expected heap a o) as [a1 y]. cbn [fst snd] in *.
  assert (Hn1 : forall n, ~ In (PSetContents n) t) by (intros n Hin; apply (Hn n); right; exact Hin).
  specialize (IH p1 a1 Hd1 Hm2 Hn1). destruct (page_run heap p1 t), (expected_run heap a1 t). cbn [snd map] in *. congruence.
Qed.

Lemma get_keeps : forall p o, o <> PGetContents -> p_contents p = None -> p_contents (fst (page_step heap p o)) = None.
Proof.
  intros p o Ho Hp. destruct o as [e v|e|n|]; cbn [page_step]; [| exact Hp | |congruence].
  - unfold page_set. destruct (put_entry _ _ _); cbn; assumption.
  - unfold page_set_contents. destruct (put_entry _ _ _); cbn; assumption.
Qed.

Lemma settled_run : forall os p a, dict_agrees p a -> p_contents p = None -> contents_set_before_read os ->
  map seen (snd (page_run heap p os)) = snd (expected_run heap a os).
Proof.
  induction os as [|o t IH]; intros p a Hd Hp Hs; [reflexivity|].
  assert (Hm : memory_agrees p a) by (unfold memory_agrees; rewrite Hp; exact I).
  destruct (step_memory p a o Hd Hm) as [Ha Hm1]. specialize (Hm1 (or_introl Hp)).
  pose proof (step_dict p a o Hd) as Hd1. pose proof (get_keeps p o) as Hg.
  cbn [page_run expected_run].
  assert (Ht : (o = PGetContents /\ forall n, ~ In (PSetContents n) t) \/ (o <> PGetContents /\ contents_set_before_read t)).
  { destruct o; cbn in Hs; try (right; split; [discriminate|exact Hs]). left. split; [reflexivity|apply Hs]. }
  destruct Ht as [[-> Hn]|[Hne Hs1]].
  - destruct (page_step heap p PGetContents) as [p1 x], (expected heap a PGetContents) as [a1 y]. cbn [fst snd] in *.
    pose proof (no_set_run t p1 a1 Hd1 Hm1 Hn) as E. destruct (page_run heap p1 t), (expected_run heap a1 t). cbn [snd map] in *. congruence.
  - specialize (Hg Hne Hp). destruct (page_step heap p o) as [p1 x], (expected heap a o) as [a1 y]. cbn [fst snd] in *.
    specialize (IH p1 a1 Hd1 Hg Hs1). destruct (page_run heap p1 t), (expected_run heap a1 t). cbn [snd map] in *. congruence.
Qed.
End Run.

Lemma upper_lower : forall c d, to_upper c = to_upper d <-> lower c = lower d.
Proof.
  intros c d. unfold to_upper, lower. repeat cif; lia.
Qed.
Lemma same_letters_text : forall a b, same_letters a b = true <-> same_text a b.
Proof.
  intros a b. unfold same_letters, same_text. rewrite beq_eq. revert b.
  induction a as [|x a IH]; intros [|y b]; cbn; split; intros H; try discriminate; try reflexivity.
  - injection H as H1 H2. f_equal; [apply upper_lower, H1|apply IH, H2].
  - injection H as H1 H2. f_equal; [apply upper_lower, H1|apply IH, H2].
Qed.

(** C31: copying objects into another file. *)
From Coq Require Import List NArith ZArith Bool Lia String.
From Verif.Model Require Import Base Arith Buffer Equality Duplicates DeepCopy.
From Verif.Spec Require Import Equality Duplicates DeepCopy.
From Verif.Proof Require Import Tac Equality Duplicates DeepCopy.
Import ListNotations.
Open Scope N_scope.

(** When every reference leads to an object, the destination gets a copy of exactly what the roots lead to: one new object per
    original, with fresh numbers, every reference going to the copy of its target (so sharing and cycles are kept), and nothing
    else changes. *)
Theorem C31_copy_isomorphic_partial : forall alloc src dst roots r dst',
  (forall f i, alloc f = Ok i -> ~ In i (map fst f)) ->
  numbers_unique src -> numbers_unique dst -> references_resolve src roots ->
  deep_copy alloc src dst (map HIndirect roots) = Ok (r, dst') -> copied src dst roots r dst'.
Proof. intros alloc src dst roots r dst' Ha Hs Hd Hr E. eapply deep_copy_spec; eassumption. Qed.

(** Copying ends for every graph, with cycles or not, and whatever is handed over. *)
Theorem C31_ends : forall alloc src dst roots, (forall f, alloc f <> NoFuel) -> deep_copy alloc src dst roots <> NoFuel.
Proof. intros alloc src dst roots H. apply deep_copy_ends. exact H. Qed.

(** It only fails when no number can be allocated: for indirect objects of the source the copy succeeds. *)
Theorem C31_succeeds : forall alloc src dst roots,
  (forall f, exists i, alloc f = Ok i) -> (forall f i, alloc f = Ok i -> ~ In i (map fst f)) -> (forall i, In i roots -> exists v, lookup_id src i = Some v) ->
  exists r dst', deep_copy alloc src dst (map HIndirect roots) = Ok (r, dst').
Proof.
  intros alloc src dst roots Ha Hfresh Hr. unfold deep_copy. rewrite handle_roots.
  assert (Hok : forall fuel, (forall i st, copy_object alloc src fuel i st = NoFuel \/ exists st', copy_object alloc src fuel i st = Ok st') /\
    (forall rs st, copy_refs alloc src fuel rs st = NoFuel \/ exists st', copy_refs alloc src fuel rs st = Ok st')).
  { assert (Hrefs : forall fuel, (forall i st, copy_object alloc src fuel i st = NoFuel \/ exists st', copy_object alloc src fuel i st = Ok st') ->
      forall rs st, copy_refs alloc src fuel rs st = NoFuel \/ exists st', copy_refs alloc src fuel rs st = Ok st').
    { intros fuel H. induction rs as [|x rs IH]; intros st; cbn [copy_refs]; [right; eauto|].
      destruct (H x st) as [->|(st' & ->)]; [left; reflexivity|]. apply IH. }
    induction fuel as [|fuel (IHo & IHr)]; [split; [left; reflexivity|apply Hrefs; left; reflexivity]|].
    assert (Ho : forall i st, copy_object alloc src (S fuel) i st = NoFuel \/ exists st', copy_object alloc src (S fuel) i st = Ok st').
    { intros i st. rewrite copy_object_eq. destruct (assoc (c_map st) i); [right; eauto|]. destruct (lookup_id src i); [|right; eauto].
      destruct (Ha (c_dst st)) as (new & ->). apply IHr. }
    split; [exact Ho|]. apply Hrefs. exact Ho. }
  assert (Hends : deep_copy alloc src dst (map HIndirect roots) <> NoFuel).
  { apply deep_copy_ends. intros f. destruct (Ha f) as (i & ->). discriminate. }
  unfold deep_copy in Hends. rewrite handle_roots in Hends.
  destruct (Hok (S (List.length src))) as (_ & H). destruct (H roots {| c_map := []; c_dst := dst |}) as [E|(st & E)]; rewrite E in *; [exfalso; apply Hends; reflexivity|].
  cbn [rbind].
  assert (Hres : forall l, (forall i, In i l -> In i (map fst (c_map st))) -> exists r, results (c_map st) (map HIndirect l) = Ok r).
  { induction l as [|i l IH]; intros Hl; [exists []; reflexivity|]. cbn [map results]. destruct (assoc (c_map st) i) as [j|] eqn:Ea.
    - destruct IH as (r & Er); [intros; apply Hl; right; assumption|]. rewrite Er. exists (j :: r). reflexivity.
    - apply assoc_none in Ea. exfalso. apply Ea. apply Hl. left; reflexivity. }
  destruct (Hres roots) as (r & Er); [|rewrite Er; cbn [rbind]; eauto].
  intros i Hi. destruct (Hr i Hi) as (v & Hv).
  apply (copy_spec alloc Hfresh src dst) in E.
  - destruct E as (_ & ext & _ & _ & _ & Hroots). eapply Hroots; eassumption.
  - split; [constructor|]. split; [constructor|]. split; [cbn; tauto|]. split; [reflexivity|]. cbn; tauto.
Qed.

(** A destination's next number: one more than the largest. *)
Definition next_number (f : file_objects) : res ident := Ok (fold_right (fun e acc => N.max (fst (fst e)) acc) 0 f + 1, 0).
Lemma next_fresh : forall f i, next_number f = Ok i -> ~ In i (map fst f).
Proof.
  intros f i E Hin. unfold next_number in E. injection E as <-.
  assert (H : forall n g, In (n, g) (map fst f) -> n <= fold_right (fun e acc => N.max (fst (fst e)) acc) 0 f).
  { clear. induction f as [|[[a b] v] f IH]; intros n g Hin; [destruct Hin|]. cbn [map fst fold_right] in *. destruct Hin as [E|Hin].
    - injection E as -> _. lia.
    - specialize (IH _ _ Hin). lia. }
  apply H in Hin. lia.
Qed.

(** A page that shares a font with another page, and a parent that refers back: sharing and a cycle. *)
Definition source : file_objects :=
  [(1, 0, VDict [(str "Kids", VArr [VRef 2 0; VRef 3 0])]); (2, 0, VDict [(str "Font", VRef 4 0); (str "Parent", VRef 1 0)]);
   (3, 0, VDict [(str "Font", VRef 4 0); (str "Parent", VRef 1 0)]); (4, 0, VName (str "Courier")); (5, 0, VInt (QSigned 9))].
Definition destination : file_objects := [(1, 0, VInt (QSigned 1)); (2, 0, VInt (QSigned 2))].
Example C31_case :
  numbers_unique source /\ numbers_unique destination /\ references_resolve source [(2, 0)] /\
  deep_copy next_number source destination [HIndirect (2, 0)] =
    Ok ([(3, 0)],
        [(6, 0, VDict [(str "Font", VRef 4 0); (str "Parent", VRef 5 0)]); (5, 0, VDict [(str "Kids", VArr [VRef 3 0; VRef 6 0])]);
         (4, 0, VName (str "Courier")); (3, 0, VDict [(str "Font", VRef 4 0); (str "Parent", VRef 5 0)]);
         (1, 0, VInt (QSigned 1)); (2, 0, VInt (QSigned 2))]).
Proof.
  split; [|split; [|split]].
  - unfold numbers_unique. cbn. repeat constructor; cbn; intuition discriminate.
  - unfold numbers_unique. cbn. repeat constructor; cbn; intuition discriminate.
  - split.
    + intros i [<-|[]]. eexists. right. left. reflexivity.
    + intros i v j _ Hv Hj. apply value_refs_spec in Hj. cbn in Hv.
      assert (Hall : In j [(1, 0); (2, 0); (3, 0); (4, 0)]).
      { destruct Hv as [E|[E|[E|[E|[E|[]]]]]]; injection E as <- <-; cbn in Hj |- *; tauto. }
      cbn in Hall. destruct Hall as [<-|[<-|[<-|[<-|[]]]]]; eexists; unfold holds; cbn; eauto 8.
  - vm_compute. reflexivity.
Qed.

(** Finding: a reference to an object the source does not have (null) is copied with its old number, so in the destination it leads
    to whatever object has that number. *)
Theorem C31_missing_reference_refuted :
  exists src dst roots r dst', numbers_unique src /\ numbers_unique dst /\ (forall i, In i roots -> exists v, holds src i v) /\
    deep_copy next_number src dst (map HIndirect roots) = Ok (r, dst') /\
    find_indirect src 1 0 = VArr [VRef 2 0] /\ find_indirect src 2 0 = VNull /\
    r = [(3, 0)] /\ find_indirect dst' 3 0 = VArr [VRef 2 0] /\ find_indirect dst' 2 0 = VInt (QSigned 2) /\
    ~ copied src dst roots r dst'.
Proof.
  exists [(1, 0, VArr [VRef 2 0])], destination, [(1, 0)], [(3, 0)], [(3, 0, VArr [VRef 2 0]); (1, 0, VInt (QSigned 1)); (2, 0, VInt (QSigned 2))].
  split; [unfold numbers_unique; cbn; repeat constructor; cbn; intuition discriminate|].
  split; [unfold numbers_unique; cbn; repeat constructor; cbn; intuition discriminate|].
  split; [intros i [<-|[]]; eexists; left; reflexivity|]. split; [vm_compute; reflexivity|]. repeat (split; [reflexivity|]).
  intros (m & _ & _ & H3 & H4 & _ & _ & H7).
  assert (Hf : found_from [(1, 0, VArr [VRef 2 0])] [(1, 0)] (1, 0)) by (eapply ff_root; [left; reflexivity|left; reflexivity]).
  assert (Hh : holds [(1, 0, VArr [VRef 2 0])] (1, 0) (VArr [VRef 2 0])) by (left; reflexivity).
  destruct (H3 _ _ Hf Hh) as (v' & Hv' & Hren). cbn [map] in H7. injection H7 as H7. rewrite <- H7 in Hv'.
  destruct Hv' as [E|[E|[E|[]]]]; try discriminate. injection E as <-.
  inversion Hren as [| | | | | | |? ? Hl| |]; subst. inversion Hl as [|? ? ? ? Hx _]; subst. inversion Hx as [| | | | | |n g E1 E2| | |]; subst.
  destruct (H4 _ _ (2, 0) Hf Hh) as (_ & H5); [eapply cr_arr; [left; reflexivity|apply (cr_ref (2, 0))]|].
  destruct H5 as (w & Hw); [|destruct Hw as [E|[]]; discriminate].
  exists (VInt (QSigned 2)). rewrite (surjective_pairing (m (2, 0))). rewrite E2 in *. rewrite H0. right. right. left. reflexivity.
Qed.

(** Finding: an object that is not indirect is not copied, and asking for its copy reads past the end of the map. *)
Theorem C31_direct_object_refuted : forall alloc src dst v, value_refs v = [] -> deep_copy alloc src dst [HDirect v] = Undef.
Proof. intros alloc src dst v H. unfold deep_copy. cbn [flat_map handle_refs]. rewrite H. reflexivity. Qed.

Print Assumptions C31_copy_isomorphic_partial.
Print Assumptions C31_ends.
Print Assumptions C31_succeeds.
Print Assumptions C31_missing_reference_refuted.
Print Assumptions C31_direct_object_refuted.

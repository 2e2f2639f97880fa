(** Dictionaries are maps (C11), arrays are sequences (C12), attribute lists are maps (C47). *)
From Coq Require Import List NArith ZArith Bool Lia String Sorted.
From Verif.Model Require Import Base SMap Containers.
From Verif.Spec Require Import Containers.
From Verif.Proof Require Import Tac SMap Containers.
Import ListNotations.
Local Open Scope N_scope.

(** ** C11.  The full statement would be [C11_dictionary_is_map_partial] without [no_replacement]; it is false, see
    [C11_overwrite_refuted]. *)
Theorem C11_dictionary_is_map_partial :
  forall (V : Type) (os : list (dict_op V)),
    Forall op_keys_ok os -> no_replacement fm_empty os ->
    looks_like (fst (dict_run [] os)) (fst (map_run fm_empty os)) /\
    snd (dict_run [] os) = snd (map_run fm_empty os).
Proof.
  intros V os Hk Hn. destruct (dict_run_agrees os [] fm_empty Hk Hn agrees_empty) as (Ha & He).
  split; [apply agrees_looks_like, Ha|exact He].
Qed.

Example C11_case :
  let os := [DInsert (str "B") 1 false; DInsert (str "A") 2 true; DRemove (str "C"); DInsert (str "B") 3 false;
             DMerge [(str "A", 7); (str "C", 8)]; DRemove (str "B")] in
  Forall op_keys_ok os /\ no_replacement fm_empty os /\
  dict_run [] os = ([(str "A", 2); (str "C", 8)], [Ok true; Ok true; Ok false; Throw EDuplicateKey; Ok true; Ok true]).
Proof.
  cbv zeta. split; [|split].
  - repeat constructor; cbn; try (repeat constructor; fail); repeat (constructor; [vm_compute; reflexivity|]); constructor.
  - cbn. repeat split.
  - vm_compute. reflexivity.
Qed.

(** Inserting with overwrite over a present key keeps the old value: for every dictionary reached by any such history, every
    key in it and every new value that differs. *)
Theorem C11_overwrite_refuted :
  forall (V : Type) (os : list (dict_op V)) k v w,
    Forall op_keys_ok os -> no_replacement fm_empty os -> all_bytes k ->
    let m := fst (dict_run [] os) in
    dict_try_find m k = Some w ->
    exists m', dict_step m (DInsert k v true) = (m', Ok true) /\ dict_try_find m' k = Some w.
Proof.
  intros V os k v w Hk Hn Hb m Hf.
  destruct (dict_run_agrees os [] fm_empty Hk Hn agrees_empty) as (Ha & _).
  fold m in Ha. pose proof Ha as (_ & _ & Hfind). unfold dict_try_find in *. rewrite (Hfind _ Hb) in Hf.
  destruct (overwrite_keeps m _ k v w Ha Hb Hf) as (m' & E & Ha').
  exists m'. split; [exact E|]. destruct Ha' as (_ & _ & Hf'). rewrite (Hf' _ Hb). exact Hf.
Qed.

Example C11_overwrite_case :
  exists (os : list (dict_op N)) k v,
    dict_try_find (fst (dict_run [] os)) k = Some 1 /\
    dict_try_find (fst (dict_run [] (os ++ [DInsert k v true]))) k = Some 1 /\ v = 2.
Proof. exists [DInsert (str "K") 1 false], (str "K"), 2. vm_compute. auto. Qed.

(** The comment of Merge says that conflicting entries are overridden; they are kept. *)
Theorem C11_merge_overrides_refuted :
  exists (a b : smap N) k, dict_try_find b k = Some 2 /\ dict_try_find (dict_merge a b) k = Some 1.
Proof. exists [(str "K", 1)], [(str "K", 2)], (str "K"). vm_compute. auto. Qed.

(** ** C12 *)
Theorem C12_array_is_sequence :
  forall (V : Type) (os : list (arr_op V)),
    let l := fst (arr_run [] os) in
    let s := fst (seq_run seq_empty os) in
    arr_size l = slen s /\
    (forall i, arr_get l i = match sget s i with Some v => Ok v | None => Throw EStdRange end) /\
    (forall i, sget s i = None <-> slen s <= i) /\
    snd (arr_run [] os) = snd (seq_run seq_empty os).
Proof.
  intros V os l s.
  assert (Hs0 : seq_of (V := V) [] seq_empty).
  { split; [reflexivity|]. intros i. cbn. destruct (N.to_nat i); reflexivity. }
  destruct (arr_run_seq os [] seq_empty Hs0) as ((Hl & Hg) & Ha). fold l in Hl, Hg. fold s in Hl, Hg.
  assert (Hnone : forall i, sget s i = None <-> slen s <= i).
  { intros i. rewrite Hg, nth_error_None. lia. }
  repeat split; try assumption.
  - unfold arr_size. congruence.
  - intros i. unfold arr_get, arr_size. rewrite <- Hl. destruct (N.ltb_spec i (slen s)) as [Hi|Hi].
    + rewrite <- Hg. destruct (sget s i) eqn:E; [reflexivity|]. apply Hnone in E. lia.
    + destruct (Hnone i) as (_ & H). rewrite (H Hi). reflexivity.
  - apply (Hnone i).
  - apply (Hnone i).
Qed.

Example C12_case :
  arr_run [] [AAppend 1; AInsert 0 2; AInsert 5 9; ASet 1 3; ARemove 7; AAppend 4; ARemove 0] =
  ([3; 4], [Ok true; Ok true; Throw EGeneral; Ok true; Ok false; Ok true; Ok true]).
Proof. vm_compute. reflexivity. Qed.

(** An out of range index is reported and changes nothing. *)
Theorem C12_out_of_range :
  forall (V : Type) (l : list V) i v,
    (arr_size l < i -> arr_step l (AInsert i v) = (l, Throw EGeneral)) /\
    (arr_size l <= i -> arr_step l (ASet i v) = (l, Throw EGeneral)) /\
    (arr_size l <= i -> arr_step l (ARemove i) = (l, Ok false)) /\
    (arr_size l <= i -> arr_get l i = Throw EStdRange).
Proof.
  intros V l i v. cbn [arr_step]. unfold arr_insert, arr_set, arr_remove, arr_get.
  split; [|split; [|split]]; intros H.
  - destruct (N.ltb_spec (arr_size l) i); [reflexivity|lia].
  - destruct (N.leb_spec (arr_size l) i); [reflexivity|lia].
  - destruct (N.leb_spec (arr_size l) i); [reflexivity|lia].
  - destruct (N.ltb_spec i (arr_size l)); [lia|reflexivity].
Qed.

(** ** C47.  The full statement would be without [no_attr_replacement]. *)
Theorem C47_attribute_list_is_map_partial :
  forall (V : Type) (os : list (attr_op V)),
    no_attr_replacement fm_empty os ->
    let m := fst (attr_run [] os) in
    let f := fst (amap_run fm_empty os) in
    (forall t, attr_get m t = match f t with Some v => Ok v | None => Throw EGeneral end) /\
    (forall t, attr_contains m t = present f t) /\
    snd (attr_run [] os) = snd (amap_run fm_empty os).
Proof.
  intros V os Hn m f.
  destruct (attr_run_agrees os [] fm_empty Hn (fun t => eq_refl)) as (Ha & He). fold m in Ha. fold f in Ha.
  split; [|split; [|exact He]]; intros t.
  - unfold attr_get. rewrite (Ha t). reflexivity.
  - unfold attr_contains, present. rewrite (Ha t). reflexivity.
Qed.

Example C47_case :
  let os := [TAdd 1 10 false; TAdd 1 11 false; TAdd 2 12 true; TRemove 1; TRemove 1; TAdd 1 13 true] in
  no_attr_replacement fm_empty os /\
  snd (attr_run [] os) = [Ok true; Throw EDuplicateKey; Ok true; Ok true; Ok false; Ok true] /\
  attr_get (fst (attr_run [] os)) 1 = Ok 13.
Proof. cbv zeta. split; [|vm_compute; auto]. cbn. repeat split. Qed.

(** Adding with overwrite over a present attribute keeps the old attribute. *)
Theorem C47_overwrite_refuted :
  exists (os : list (attr_op N)), attr_get (fst (attr_run [] os)) 1 = Ok 10 /\
    fst (amap_run fm_empty os) 1 = Some 11 /\ os = [TAdd 1 10 false; TAdd 1 11 true].
Proof. eexists. split; [|split]; [| |reflexivity]; vm_compute; reflexivity. Qed.

Print Assumptions C11_dictionary_is_map_partial.
Print Assumptions C11_overwrite_refuted.
Print Assumptions C11_merge_overrides_refuted.
Print Assumptions C12_array_is_sequence.
Print Assumptions C12_out_of_range.
Print Assumptions C47_attribute_list_is_map_partial.
Print Assumptions C47_overwrite_refuted.

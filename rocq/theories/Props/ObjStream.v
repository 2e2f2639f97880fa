(** C22: object streams survive rebuild and re-read. *)
From Coq Require Import List NArith ZArith Bool Lia String Permutation Sorted.
From Verif.Model Require Import Base Char Numbers SMap Object Token Parser Arith Xref ObjStream.
From Verif.Spec Require Import Strings Grammar ObjStream.
From Verif.Proof Require Import Tac Numbers Strings Token SMap Parser Writer StreamObj Arith Xref FileWrite ObjStream StreamObj.
Import ListNotations.
Local Open Scope N_scope.

Definition as_member (e : comp_entry) : member := (ce_num e, ce_index e, ce_obj e).

(** Any non-empty list of compressed objects, with any numbers and indexes: the rebuilt stream, loaded with the counts the rebuild
    stored in its dictionary, holds exactly these objects under their numbers, in the order of the indexes. *)
Theorem C22_object_stream_roundtrip : forall rl l m n first body,
  l <> [] -> Forall (fun e => writable (ce_obj e) /\ ce_num e < 2 ^ 63) l -> writable (ODict m) ->
  rebuild_object_stream l = (n, first, body) -> N.of_nat (List.length body) < 2 ^ 63 ->
  exists out, load_object_stream parser_dictionary rl (set_counts n first m) body = Ok out /\ holds (map as_member l) out.
Proof.
  intros rl l m n first body Hne Hf Hm H Hlen. destruct (read_rebuilt rl l n first body Hne Hf H Hlen) as (B1 & B2 & B3 & R).
  exists (map (fun e => (ce_num e, ce_obj e)) (sort_by_index l)). split.
  - unfold load_object_stream. destruct body as [|c body]; [congruence|].
    assert (W1 : writable (ODict (sm_insert (str "N") (OInt (Z.of_N n)) (sm_remove (str "N") m)))).
    { apply writable_set; [exact Hm|apply str_bytes|apply w_int|discriminate].
      change (2 ^ 63) with 9223372036854775808 in B2. change (2 ^ 63)%Z with 9223372036854775808%Z. lia. }
    change (2 ^ 63) with 9223372036854775808 in B2, B3.
    unfold find_unsigned, set_counts. rewrite !find_set by (first [exact W1|exact Hm|apply str_bytes]).
    destruct (list_eq_dec N.eq_dec (str "First") (str "First")) as [_|E]; [|congruence].
    destruct (list_eq_dec N.eq_dec (str "N") (str "First")) as [E|_]; [discriminate|].
    destruct (list_eq_dec N.eq_dec (str "N") (str "N")) as [_|E]; [|congruence].
    unfold to_u64. replace (Z.of_N first <? 0)%Z with false by lia. cbn [rbind].
    replace (Z.of_N n <? 0)%Z with false by lia. cbn [rbind]. rewrite !N2Z.id. exact R.
  - exists (map as_member (sort_by_index l)). split; [apply Permutation_map; apply sort_perm|]. split.
    + clear R. assert (S := sort_sorted l). induction S as [|e t S1 IH S2]; cbn [map]; [exact (SSorted_nil _)|].
      apply SSorted_cons; [exact IH|]. apply Forall_forall. intros x Hx. apply in_map_iff in Hx. destruct Hx as (y & <- & Hy).
      rewrite Forall_forall in S2. exact (S2 y Hy).
    + rewrite map_map. reflexivity.
Qed.

(** Saving a section: every object stream of the section is rebuilt from exactly the compressed entries that name it. *)
Theorem C22_every_stream_rebuilt : forall l e, In e l ->
  exists counts, In (ce_stream e, counts) (fst (rebuild_section l)) /\
    counts = rebuild_object_stream (filter (fun x => ce_stream x =? ce_stream e) l) /\
    forall c2, In (ce_stream e, c2) (fst (rebuild_section l)) -> c2 = counts.
Proof.
  intros l e He. eexists. split; [|split; [reflexivity|]].
  - cbn [rebuild_section fst]. apply in_map_iff. exists (ce_stream e). split; [reflexivity|].
    assert (G : forall k seen, In e k -> ~ In (ce_stream e) seen -> In (ce_stream e) (stream_numbers k seen)).
    { induction k as [|x t IH]; intros seen Hi Hs; [destruct Hi|]. cbn [stream_numbers].
      destruct (existsb (N.eqb (ce_stream x)) seen) eqn:Ex.
      - destruct Hi as [->|Hi]; [|auto]. apply existsb_exists in Ex. destruct Ex as (y & Hy & Ey). apply N.eqb_eq in Ey. congruence.
      - destruct (N.eq_dec (ce_stream x) (ce_stream e)) as [E|E]; [left; exact E|]. right. destruct Hi as [->|Hi]; [congruence|].
        apply IH; [exact Hi|]. intros [F|F]; congruence. }
    apply G; [exact He|intros []].
  - intros c2 H. cbn [rebuild_section fst] in H. apply in_map_iff in H. destruct H as (n & E & _). injection E as -> <-. reflexivity.
Qed.

(** After an object was removed from an object stream, the index recorded for a later object is not its place in the rebuilt
    stream (7.5.8.3 wants the index of the object within the stream). *)
Theorem C22_recorded_index_refuted : exists l n first body e out i,
  Forall (fun e => writable (ce_obj e) /\ ce_num e < 2 ^ 63) l /\ NoDup (map ce_num l) /\ NoDup (map ce_index l) /\
  In (n, (2, first, body)) (fst (rebuild_section l)) /\ In e (snd (rebuild_section l)) /\
  read_object_stream parser_dictionary (fun _ _ => Throw ENotModelled) first 2 body = Ok out /\
  nth_error out i = Some (ce_num e, ce_obj e) /\ ce_index e <> N.of_nat i.
Proof.
  exists [ {| ce_num := 4; ce_stream := 9; ce_index := 0; ce_obj := OBool true |};
           {| ce_num := 7; ce_stream := 9; ce_index := 2; ce_obj := ONull |} ], 9, 8, (str "4 0 7 5 true null"),
    {| ce_num := 7; ce_stream := 9; ce_index := 2; ce_obj := ONull |}, [(4, OBool true); (7, ONull)], 1%nat.
  repeat split.
  - repeat (apply Forall_cons || apply Forall_nil); (split; [constructor|reflexivity]).
  - repeat (apply NoDup_cons || apply NoDup_nil); cbn; intros H; decompose [or] H; try discriminate; contradiction.
  - repeat (apply NoDup_cons || apply NoDup_nil); cbn; intros H; decompose [or] H; try discriminate; contradiction.
  - left. vm_compute. reflexivity.
  - right. left. reflexivity.
  - vm_compute. discriminate.
Qed.

(** a case: three objects listed out of order, one of them a dictionary with a reference, integers next to each other *)
Definition c22_list : list comp_entry :=
  [ {| ce_num := 12; ce_stream := 3; ce_index := 2; ce_obj := OInt 0 |};
    {| ce_num := 5; ce_stream := 3; ce_index := 0; ce_obj := ODict [(str "A", ORef 7 0)] |};
    {| ce_num := 8; ce_stream := 3; ce_index := 1; ce_obj := OInt (-5) |} ].
Example C22_case : exists out,
  load_object_stream parser_dictionary (fun _ _ => Throw ENotModelled)
    (set_counts 3 (snd (fst (rebuild_object_stream c22_list))) [(str "Type", OName (str "ObjStm"))])
    (snd (rebuild_object_stream c22_list)) = Ok out /\ holds (map as_member c22_list) out.
Proof.
  apply (C22_object_stream_roundtrip _ c22_list).
  - discriminate.
  - unfold c22_list. repeat (apply Forall_cons || apply Forall_nil); (split; [|reflexivity]); cbn [ce_obj].
    + apply w_int; split; vm_compute; congruence.
    + apply writable_from; [repeat constructor|repeat constructor; apply str_bytes|].
      repeat constructor; discriminate.
    + apply w_int; split; vm_compute; congruence.
  - apply writable_from; [repeat constructor|repeat constructor; apply str_bytes|].
    repeat constructor; try discriminate; apply str_bytes.
  - vm_compute. reflexivity.
  - vm_compute. reflexivity.
Qed.

Print Assumptions C22_object_stream_roundtrip.
Print Assumptions C22_every_stream_rebuilt.
Print Assumptions C22_recorded_index_refuted.

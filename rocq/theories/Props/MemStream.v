(** C67: what is written to a memory stream is there. *)
From Coq Require Import List NArith ZArith Bool Lia String Arith.
From Verif.Model Require Import Base Errors MemStream.
From Verif.Spec Require Import MemStream.
From Verif.Proof Require Import Tac MemStream.
Import ListNotations.
Local Open Scope N_scope.

(** As long as no call asks for more than there is, every history of reads, writes and moves of both positions is that of plain memory.
    This holds for a new stream, and for a stream with any history once its reading position is set to a place in its data. *)
Theorem C67_memory_partial : forall strict ops, stays_within ops nothing ->
  exists r s, apply_all strict ops empty_stream = Ok (r, s) /\ run ops nothing r (memory_of s).
Proof. intros strict ops H. apply (within_run strict ops empty_stream); [split; cbn; lia|reflexivity|exact H]. Qed.
Theorem C67_starts_over : forall strict before r0 s z ops,
  apply_all strict before empty_stream = Ok (r0, s) -> (0 <= z <= Z.of_nat (List.length (contents s)))%Z ->
  stays_within ops {| bytes_of := contents s; read_at := Z.to_nat z; write_at := m_put s |} ->
  exists r s', apply_all strict (SetInputPosition z :: ops) s = Ok (ADone :: r, s') /\
    run ops {| bytes_of := contents s; read_at := Z.to_nat z; write_at := m_put s |} r (memory_of s').
Proof.
  intros strict before r0 s z ops E Hz Hw. unfold contents in *.
  assert (Hs : sound s) by (eapply apply_all_sound; [|exact E]; split; cbn; lia). destruct Hs as (H1 & H2).
  cbn [apply_all apply rbind]. unfold set_input_position, inside. replace (z =? -1)%Z with false by lia.
  replace ((0 <=? z)%Z && (z <=? Z.of_nat (List.length (m_data s)))%Z) with true by lia.
  destruct (within_run strict ops {| m_data := m_data s; m_get := Z.to_nat z; m_put := m_put s; m_eof := false; m_fail := false |}) as (r & s' & E' & R);
    [split; cbn [m_get m_put m_data]; lia|reflexivity|exact Hw|].
  rewrite E'. cbn [rbind]. exists r, s'. split; [reflexivity|exact R].
Qed.

(** Reading to the end loses later writes: after a read that finds less than it asks for, whatever is written is not stored, although
    every call succeeds, and reading and asking for positions gives nothing, until the reading position is set again. *)
Theorem C67_lost_writes_refuted : forall strict before r0 s n ops r s',
  apply_all strict before empty_stream = Ok (r0, s) -> good s = true -> (Z.of_nat (List.length (contents s) - m_get s) < n)%Z ->
  (forall o, In o ops -> ~ starts_over o s) ->
  apply_all strict (Read n :: ops) s = Ok (r, s') ->
  contents s' = contents s /\ exists b r1, r = ABytes b :: r1 /\ Forall2 gives_nothing ops r1.
Proof.
  intros strict before r0 s n ops r s' E Hg Hn Hops E'. unfold contents in *.
  cbn [apply_all apply] in E'. destruct (n <? 0)%Z eqn:En; [lia|]. unfold raw_read in E'. rewrite Hg in E'. cbv zeta in E'.
  replace (Nat.ltb _ (Z.to_nat n)) with true in E'.
  2:{ symmetry. apply Nat.ltb_lt. rewrite firstn_length, skipn_length. lia. }
  cbn [rbind] in E'. apply rbind_ok in E'. destruct E' as ([r2 s2] & E2 & X). injection X as <- <-.
  assert (St := fun A B => stuck_all strict ops _ r2 s2 A B E2). destruct (St eq_refl Hops) as (_ & D & G).
  split; [exact D|]. eexists _, _. split; [reflexivity|exact G].
Qed.

(** No history of calls is undefined or endless. *)
Theorem C67_always_answers : forall strict ops, Forall no_negative_read ops -> exists r s, apply_all strict ops empty_stream = Ok (r, s).
Proof. intros strict ops H. destruct (apply_all_ok strict ops empty_stream) as (r & s & E & _); [split; cbn; lia|exact H|]. exists r, s. exact E. Qed.

(** A stream made from a buffer holds the buffer: any part is read first, the rest comes as one buffer, and then nothing. *)
Theorem C67_buffer_stream : forall strict b n, (n <= List.length b)%nat ->
  exists s, apply_all strict [Read (Z.of_nat n); ToBuffer; ToBuffer] (stream_of strict b) = Ok ([ABytes (firstn n b); ABytes (skipn n b); ABytes []], s) /\ contents s = b.
Proof.
  intros strict b n Hn. unfold stream_of, raw_write, empty_stream, good. cbn [m_eof m_fail negb andb m_data m_get m_put].
  assert (Ed : put_bytes 0 b [] = b) by (unfold put_bytes; cbn [firstn app]; rewrite skipn_nil; apply app_nil_r). rewrite Ed. cbn [Nat.add].
  set (s0 := {| m_data := b; m_get := 0; m_put := List.length b; m_eof := false; m_fail := false |}).
  cbn [apply_all apply]. destruct (Z.of_nat n <? 0)%Z eqn:En; [lia|]. rewrite Nat2Z.id.
  assert (Er : raw_read n s0 = (firstn n b, {| m_data := b; m_get := n; m_put := List.length b; m_eof := false; m_fail := false |})).
  { unfold raw_read. cbn [good s0 m_eof m_fail negb andb m_data m_get m_put skipn]. cbv zeta. rewrite firstn_length. replace (Nat.min n (List.length b)) with n by lia.
    replace (Nat.ltb n n) with false by (symmetry; apply Nat.ltb_ge; lia). reflexivity. }
  rewrite Er. cbn [rbind].
  set (s1 := {| m_data := b; m_get := n; m_put := List.length b; m_eof := false; m_fail := false |}).
  destruct (to_buffer_ok (S (S (List.length (m_data s1)))) [] s1) as (s2 & E2 & F2 & D2); [split; cbn [s1 m_data m_get m_put]; lia|reflexivity|cbn [s1 m_data m_get]; lia|].
  rewrite E2. cbn [rbind app s1 m_get m_data]. rewrite to_buffer_stuck by (unfold good; rewrite F2; apply andb_false_r). cbn [rbind].
  eexists. split; [reflexivity|]. exact D2.
Qed.

(** A stream that is written, read in part, and overwritten in the middle. *)
Definition c67_calls : list op :=
  [WriteString (str "Hello world"); SetInputPosition 6; Read 5; SetOutputPosition 0; WriteBuffer (str "J"); GetOutputPosition; SetInputPosition 0; Read 11; GetInputPosition].
Example C67_case : forall strict,
  stays_within c67_calls nothing /\
  exists s, apply_all strict c67_calls empty_stream = Ok ([ADone; ADone; ABytes (str "world"); ADone; ADone; APosition 1; ADone; ABytes (str "Jello world"); APosition 11], s).
Proof.
  intros strict. split; [|eexists; reflexivity].
  assert (G : forall l s, sound s -> good s = true -> (fix ok l s := match l with [] => True | o :: l' => within o (memory_of s) /\ match apply strict o s with Ok (_, s') => ok l' s' | _ => False end end) l s -> stays_within l (memory_of s)).
  { induction l as [|o l IH]; intros s Hs Hg H; [constructor|]. destruct H as (Hw & H). constructor; [exact Hw|]. intros a m' St.
    destruct (within_step strict o s Hs Hg Hw) as (a1 & s1 & E & H1 & G1 & St1). rewrite E in H.
    assert (Em : m' = memory_of s1); [|subst m'; apply IH; assumption].
    destruct o; cbn [step] in St, St1.
    - destruct St as (b & _ & L & _ & ->), St1 as (b1 & _ & L1 & _ & ->). replace (List.length b) with (List.length b1) by lia. reflexivity.
    - destruct St as (_ & ->), St1 as (_ & ->). reflexivity.
    - destruct St as (_ & ->), St1 as (_ & ->). reflexivity.
    - destruct St as (_ & ->), St1 as (_ & ->). reflexivity.
    - destruct St as (_ & ->), St1 as (_ & ->). reflexivity.
    - destruct St as (_ & t & new & A & B & C & ->), St1 as (_ & t1 & new1 & A1 & B1 & C1 & ->).
      assert (t = t1) by (rewrite <- (Errors.c_string_says s0 t B A); apply (Errors.c_string_says s0 t1 B1 A1)). subst t1. rewrite (written_unique _ _ _ _ _ C C1). reflexivity.
    - destruct St as (_ & new & C & ->), St1 as (_ & new1 & C1 & ->). rewrite (written_unique _ _ _ _ _ C C1). reflexivity.
    - destruct St as (_ & ->), St1 as (_ & ->). reflexivity.
    - destruct St. }
  apply (G c67_calls empty_stream); [split; cbn; lia|reflexivity|]. vm_compute. repeat split; discriminate.
Qed.
Example C67_lost_case : forall strict, exists s, apply_all strict [WriteString (str "abc"); Read 4; WriteString (str "def"); SetInputPosition 0; Read 3] empty_stream =
  Ok ([ADone; ABytes (str "abc"); ADone; ADone; ABytes (str "abc")], s) /\ contents s = str "abc".
Proof. intros strict. eexists. split; reflexivity. Qed.

Print Assumptions C67_memory_partial.
Print Assumptions C67_starts_over.
Print Assumptions C67_lost_writes_refuted.
Print Assumptions C67_always_answers.
Print Assumptions C67_buffer_stream.

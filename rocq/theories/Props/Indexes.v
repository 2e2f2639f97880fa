(** C88: indexes outside of a collection. *)
From Coq Require Import List NArith ZArith Lia Bool.
From Verif.Model Require Import Base Object Containers Indexes.
From Verif.Spec Require Import Indexes.
From Verif.Proof Require Import Tac Indexes.
Import ListNotations.

(** Arrays: whatever is called, with whatever indexes, an index that the array does not have is refused and changes nothing. *)
Theorem C88_arrays : forall (V : Type) (cs : list (call V)) l, let '(l', rs) := calls array_object l cs in all_do l cs l' rs.
Proof. intros V cs l. destruct (array_calls cs l) as (l' & rs & E & H). rewrite E. exact H. Qed.
(** Lists of buffers, as long as a program inserts at most behind the last element and removes at most one behind it. *)
Theorem C88_buffers_partial : forall (V : Type) (cs : list (call V)) l, within 1 (N.of_nat (length l)) cs -> Forall no_clear cs ->
  let '(l', rs) := calls buffer_array l cs in all_do l cs l' rs.
Proof. intros V cs l W F. destruct (buffer_calls cs l W F) as (l' & rs & E & H). rewrite E. exact H. Qed.
(** Instructions of a page, as long as it inserts at most behind the last element and removes what is there. *)
Theorem C88_instructions_partial : forall (V : Type) (cs : list (call V)) l, within 0 (N.of_nat (length l)) cs ->
  let '(l', rs) := calls instruction_collection l cs in all_do l cs l' rs.
Proof. intros V cs l W. destruct (instruction_calls cs l W) as (l' & rs & E & H). rewrite E. exact H. Qed.
(** Finding: every other insertion or removal is undefined behaviour. *)
Theorem C88_insert_refuted : forall (V : Type) (l : list V) i v, (N.of_nat (length l) < i)%N ->
  snd (buffer_array l (Insert i v)) = Undef /\ snd (instruction_collection l (Insert i v)) = Undef.
Proof. intros V l i v H. cbn [buffer_array instruction_collection]. unfold insert_at, arr_size. destruct (N.leb_spec i (N.of_nat (length l))); [lia|split; reflexivity]. Qed.
Theorem C88_remove_refuted : forall (V : Type) (l : list V) i,
  ((N.of_nat (length l) < i)%N -> snd (buffer_array l (Remove i)) = Undef) /\
  ((N.of_nat (length l) <= i)%N -> snd (instruction_collection l (Remove i)) = Undef).
Proof.
  intros V l i. cbn [buffer_array instruction_collection]. unfold erase_at, arr_size. split; intros H.
  - destruct (N.ltb_spec (N.of_nat (length l)) i); [reflexivity|lia].
  - destruct (N.ltb_spec i (N.of_nat (length l))); [lia|reflexivity].
Qed.

(** The operations of a text object, the operands of an operation, the annotations of a page and the fields of a form are read by index:
    those there are, and no others. *)
Theorem C88_read : forall (V : Type) (l : list V) i, vector_at l i = match nth_error l (N.to_nat i) with Some v => Ok v | None => Throw EStdRange end.
Proof.
  intros V l i. unfold vector_at, arr_get, arr_size. destruct (N.ltb_spec i (N.of_nat (length l))) as [H|H].
  - destruct (nth_error l (N.to_nat i)) eqn:E; [reflexivity|]. apply nth_error_None in E. lia.
  - replace (nth_error l (N.to_nat i)) with (@None V); [reflexivity|]. symmetry. apply nth_error_None. lia.
Qed.
Theorem C88_elements : forall (V : Type) (create : list (bytes * obj) -> res V) l i,
  (forall d, nth_error l (N.to_nat i) = Some (ODict d) -> element_at create l i = create d) /\
  ((N.of_nat (length l) <= i)%N -> element_at create l i = Throw EStdRange).
Proof.
  intros V create l i. pose proof (C88_read obj l i) as E. unfold vector_at in E. unfold element_at. rewrite E. split.
  - intros d H. rewrite H. reflexivity.
  - intros H. replace (nth_error l (N.to_nat i)) with (@None obj); [reflexivity|]. symmetry. apply nth_error_None. lia.
Qed.

(** The byte ranges of a signature: their number, and the first one. *)
Theorem C88_byte_ranges_partial : forall ps, (N.of_nat (length (flat ps)) < 2 ^ 64)%N ->
  byte_ranges (flat ps) = Ok (flat ps) /\ byte_range_count (flat ps) = N.of_nat (length ps) /\
  (forall p t, ps = p :: t -> byte_range (flat ps) 0 = Ok p) /\
  (forall i, (N.of_nat (2 * length ps) <= i + 1)%N -> (i < 2 ^ 64)%N -> exists e, byte_range (flat ps) i = Throw e).
Proof.
  intros ps Hl. unfold byte_ranges, byte_range_count. rewrite flat_even, flat_length. split; [reflexivity|]. split; [|split].
  - replace (N.of_nat (2 * length ps)) with (N.of_nat (length ps) * 2)%N by lia. apply N.div_mul. discriminate.
  - intros [a b] t ->. apply (byte_range_at (flat ((a, b) :: t)) 0 a b Hl); reflexivity.
  - intros i Hi Hi'. rewrite flat_length in Hl. unfold byte_range. pose proof (C88_read Z (flat ps) i) as E. unfold vector_at in E. rewrite E.
    destruct (nth_error (flat ps) (N.to_nat i)) as [x|] eqn:Ex; [|eexists; reflexivity]. cbn [rbind].
    assert (H : N.to_nat i < length (flat ps)) by (apply nth_error_Some; congruence). rewrite flat_length in H.
    assert (Hm : ((i + 1) mod 2 ^ 64 = i + 1)%N) by (apply N.mod_small; lia). rewrite Hm.
    pose proof (C88_read Z (flat ps) (i + 1)) as E'. unfold vector_at in E'. rewrite E'.
    destruct (nth_error (flat ps) (N.to_nat (i + 1))) as [y|] eqn:Ey; [|eexists; reflexivity].
    assert (H' : N.to_nat (i + 1) < length (flat ps)) by (apply nth_error_Some; congruence). rewrite flat_length in H'. lia.
Qed.
(** Finding: index k gives the numbers k and k + 1, so that every range after the first is read wrongly: for a signature whose value has
    a place of its own, the second range begins with the length of the first ... *)
Theorem C88_byte_range_refuted : forall a b c d t, (N.of_nat (length (flat ((a, b) :: (c, d) :: t))) < 2 ^ 64)%N ->
  byte_range (flat ((a, b) :: (c, d) :: t)) 1 = Ok (b, c).
Proof. intros a b c d t H. apply (byte_range_at _ 1 b c H); reflexivity. Qed.
(** ... and an index equal to the number of ranges, or any other up to twice that number less two, is not refused. *)
Theorem C88_byte_range_beyond_refuted : forall ps i, (N.of_nat (length (flat ps)) < 2 ^ 64)%N ->
  (byte_range_count (flat ps) <= i)%N -> (i + 1 < N.of_nat (2 * length ps))%N -> exists p, byte_range (flat ps) i = Ok p.
Proof.
  intros ps i Hl _ Hi. pose proof (flat_length ps) as L.
  destruct (nth_error (flat ps) (N.to_nat i)) as [x|] eqn:Ex; [|apply nth_error_None in Ex; lia].
  destruct (nth_error (flat ps) (S (N.to_nat i))) as [y|] eqn:Ey; [|apply nth_error_None in Ey; lia].
  exists (x, y). rewrite <- (N2Nat.id i). apply byte_range_at; [exact Hl|exact Ex|exact Ey].
Qed.

(** *** Concrete collections *)
Example C88_case :
  within 1 2 [At 7; Insert 2 30; Remove 3; Remove 0; Append 40; Size; At 2]%N /\
  calls buffer_array [10; 20]%N [At 7; Insert 2 30; Remove 3; Remove 0; Append 40; Size; At 2]%N =
    ([20; 30; 40], [Throw EStdRange; Ok Done; Throw EObjectMissing; Ok Done; Ok Done; Ok (Count 3); Ok (Value 40)])%N /\
  within 0 2 [Insert 0 5; Remove 2; At 2; Clear; Append 6]%N /\
  calls instruction_collection [10; 20]%N [Insert 0 5; Remove 2; At 2; Clear; Append 6]%N = ([6], [Ok Done; Ok Done; Throw EStdRange; Ok Done; Ok Done])%N /\
  flat [(0, 840); (960, 240)]%Z = [0; 840; 960; 240]%Z /\ byte_range_count [0; 840; 960; 240]%Z = 2%N /\
  byte_range [0; 840; 960; 240]%Z 0 = Ok (0, 840)%Z /\ byte_range [0; 840; 960; 240]%Z 1 = Ok (840, 960)%Z /\ byte_range [0; 840; 960; 240]%Z 2 = Ok (960, 240)%Z.
Proof. repeat split; vm_compute; first [reflexivity | discriminate]. Qed.

Print Assumptions C88_arrays.
Print Assumptions C88_buffers_partial.
Print Assumptions C88_instructions_partial.
Print Assumptions C88_insert_refuted.
Print Assumptions C88_remove_refuted.
Print Assumptions C88_read.
Print Assumptions C88_elements.
Print Assumptions C88_byte_ranges_partial.
Print Assumptions C88_byte_range_refuted.
Print Assumptions C88_byte_range_beyond_refuted.

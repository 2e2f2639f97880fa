(** Proofs about compressing and decompressing in blocks. *)
From Coq Require Import List NArith Arith Bool Lia.
From Verif.Model Require Import Base Zlib.
From Verif.Spec Require Import Zlib.
Import ListNotations.
Local Open Scope nat_scope.

Lemma begins_length : forall A (a b : list A), begins a b -> length a <= length b.
Proof. intros A a b (c & ->). rewrite app_length. lia. Qed.
Lemma begins_refl : forall A (a : list A), begins a a.
Proof. intros A a. exists []. rewrite app_nil_r. reflexivity. Qed.
Lemma begins_trans : forall A (a b c : list A), begins a b -> begins b c -> begins a c.
Proof. intros A a b c (x & ->) (y & ->). exists (x ++ y). rewrite app_assoc. reflexivity. Qed.
Lemma begins_same : forall A (a b : list A), begins a b -> length b <= length a -> a = b.
Proof. intros A a b (c & ->) H. rewrite app_length in H. destruct c; [rewrite app_nil_r; reflexivity|cbn in H; lia]. Qed.
Lemma size_positive : 0 < buffer_size. Proof. unfold buffer_size. lia. Qed.
Opaque buffer_size.

Section Inflate.
Variable decode : decoder.
Hypothesis format : is_format decode.
Variable zstate : Type.
Variable inflate : zstate -> bytes -> nat -> zstatus * bytes * bytes * zstate.
Variable stands : zstate -> list N -> list N -> Prop.
Variable init : zstate.
Hypothesis keeps : inflate_keeps decode zstate inflate stands init.

Lemma final : forall p q, snd (decode p) <> More -> decode (p ++ q) = decode p.
Proof. intros p q H. pose proof (proj2 format p q) as F. destruct (snd (decode p)); [congruence|exact F|exact F]. Qed.
Lemma grows : forall p q, begins (fst (decode p)) (fst (decode (p ++ q))).
Proof. intros p q. pose proof (proj2 format p q) as F. destruct (snd (decode p)); [exact F| |]; rewrite F; apply begins_refl. Qed.
Lemma more_before : forall p q, snd (decode (p ++ q)) = More -> snd (decode p) = More.
Proof. intros p q H. destruct (snd (decode p)) eqn:E; [reflexivity| |]; rewrite final in H by congruence; congruence. Qed.

(** the inner loop *)
Definition settled (expect : bool) (c input o z : list N) (s' : zstate) (rv : zstatus) (d : drained zstate) : Prop :=
  match snd (decode (c ++ input)) with
  | More => d = Next rv s' (fst (decode (c ++ input))) /\ rv <> ZStreamEnd /\ stands s' (c ++ input) (fst (decode (c ++ input)))
  | Complete => d = Next ZStreamEnd s' (fst (decode (c ++ input)))
  | Damaged => d = Stop (if expect then Unpacked z else DataError (length z)) /\ begins o z /\ begins z (fst (decode (c ++ input))) /\
      length (fst (decode (c ++ input))) <= length z + buffer_size /\ (z = o \/ length o + buffer_size <= length z)
  end.
Lemma drains : forall m s c o input, stands s c o -> begins o (fst (decode (c ++ input))) -> length (fst (decode (c ++ input))) < m + length o ->
  exists z s' rv, forall fuel expect, m <= fuel -> settled expect c input o z s' rv (drain zstate inflate expect fuel s input o).
Proof.
  induction m as [|m IH]; intros s c o input Hs Hb Hm; [apply begins_length in Hb; lia|].
  pose proof (proj2 keeps s c o input buffer_size Hs size_positive) as K.
  destruct (inflate s input buffer_size) as [[[rv out] rest] s'] eqn:Ei. destruct K as (used & Einput & Hlen & Hs' & Hb' & Hrv).
  assert (Eci : c ++ input = (c ++ used) ++ rest) by (rewrite Einput, app_assoc; reflexivity).
  assert (Hfull : length out = buffer_size -> rv <> ZDataError -> rv <> ZStreamError -> rv <> ZNeedDict -> rv <> ZMemError ->
    exists z s2 rv2, forall fuel expect, S m <= fuel -> settled expect c input o z s2 rv2 (drain zstate inflate expect fuel s input o)).
  { intros Hout R1 R2 R3 R4. pose proof size_positive as Hpos. rewrite Eci in *.
    destruct (IH s' (c ++ used) (o ++ out) rest Hs') as (z & s2 & rv2 & Hd).
    - eapply begins_trans; [exact Hb'|apply grows].
    - rewrite app_length. lia.
    - exists z, s2, rv2. intros fuel expect Hf. destruct fuel as [|fuel]; [lia|]. cbn [drain]. rewrite Ei.
      assert (Hd' := Hd fuel expect ltac:(lia)).
      assert (Erv : forall A (a b c0 d0 : A), match rv with ZStreamError => a | ZDataError => b | ZNeedDict | ZMemError => c0 | ZOk | ZStreamEnd | ZBufError => d0 end = d0) by (intros; destruct rv; congruence).
      rewrite Erv. replace (length out =? buffer_size) with true by (symmetry; apply Nat.eqb_eq; exact Hout).
      unfold settled in *. rewrite Eci. destruct (snd (decode ((c ++ used) ++ rest))); try exact Hd'.
      destruct Hd' as (D1 & D2 & D3 & D4 & D5). split; [exact D1|]. split; [eapply begins_trans; [exists out; reflexivity|exact D2]|]. split; [exact D3|]. split; [exact D4|].
      right. apply begins_length in D2. rewrite app_length in D2. lia. }
  assert (Hpart : rv <> ZDataError -> rv <> ZStreamError -> rv <> ZNeedDict -> rv <> ZMemError -> length out <> buffer_size ->
    forall fuel expect, S m <= fuel -> drain zstate inflate expect fuel s input o = Next rv s' (o ++ out)).
  { intros R1 R2 R3 R4 Hout fuel expect Hf. destruct fuel as [|fuel]; [lia|]. cbn [drain]. rewrite Ei.
    replace (length out =? buffer_size) with false by (symmetry; apply Nat.eqb_neq; exact Hout). destruct rv; congruence. }
  assert (Hgo : rv = ZOk \/ rv = ZBufError -> exists z s2 rv2, forall fuel expect, S m <= fuel -> settled expect c input o z s2 rv2 (drain zstate inflate expect fuel s input o)).
  { intros Er. destruct (Nat.eq_dec (length out) buffer_size) as [Hout|Hout]; [apply Hfull; [exact Hout|destruct Er; congruence..]|].
    assert (Hm' : rest = [] /\ snd (decode (c ++ used)) = More /\ o ++ out = fst (decode (c ++ used))) by (destruct Er; subst rv; destruct Hrv as [Hrv|Hrv]; [congruence|exact Hrv|congruence|exact Hrv]).
    destruct Hm' as (-> & Hmore & Eo). rewrite app_nil_r in Eci. exists o, s', rv. intros fuel expect Hf. rewrite Hpart by (assumption || (destruct Er; congruence)). unfold settled. rewrite Eci, Hmore, Eo.
    split; [reflexivity|]. split; [destruct Er; congruence|]. rewrite <- Eo. exact Hs'. }
  destruct rv; try (destruct Hrv; fail).
  - apply Hgo. left. reflexivity.
  - destruct Hrv as (Hend & Eo). destruct (Nat.eq_dec (length out) buffer_size) as [Hout|Hout]; [apply Hfull; [exact Hout|congruence..]|].
    exists o, s', ZOk. intros fuel expect Hf. rewrite Hpart by (assumption || congruence). unfold settled. rewrite Eci. rewrite final by (rewrite Hend; discriminate). rewrite Hend, Eo. reflexivity.
  - destruct Hrv as (Hbad & Eo). exists o, s', ZOk. intros fuel expect Hf. destruct fuel as [|fuel]; [lia|]. cbn [drain]. rewrite Ei. unfold settled. rewrite Eci. rewrite final by (rewrite Hbad; discriminate). rewrite Hbad.
    split; [reflexivity|]. split; [apply begins_refl|]. split; [rewrite <- Eo; exists out; reflexivity|]. split; [rewrite <- Eo, app_length; lia|left; reflexivity].
  - apply Hgo. right. reflexivity.
Qed.

(** ** the loop over the input *)
Definition next_size (expect : bool) (after total : nat) (data : list N) : nat :=
  if expect && (after <=? total) then Nat.min 1 (length data) else Nat.min (length data) buffer_size.
Lemma next_size_bounds : forall expect after total data, next_size expect after total data <= length data /\ (data <> [] -> 0 < next_size expect after total data).
Proof.
  intros expect after total data. pose proof size_positive. unfold next_size. destruct (expect && _); split; try lia; intros H1; destruct data; try congruence; cbn [length]; lia.
Qed.
Section Data.
Variable data : list N.
Definition upto (j : nat) : list N * progress := decode (firstn j data).
Lemma firstn_more : forall j n, firstn j data ++ firstn n (skipn j data) = firstn (j + n) data.
Proof. intros j n. generalize data. clear. induction j as [|j IH]; intros l; [reflexivity|]. destruct l; [rewrite !firstn_nil; reflexivity|]. cbn. f_equal. apply IH. Qed.
Lemma skipn_more : forall j n, skipn n (skipn j data) = skipn (j + n) data.
Proof. intros j n. generalize data. clear. induction j as [|j IH]; intros l; [reflexivity|]. destruct l; [rewrite !skipn_nil; reflexivity|]. cbn. apply IH. Qed.
Lemma upto_all : forall j, length data <= j -> upto j = decode data.
Proof. intros j H. unfold upto. rewrite firstn_all2 by exact H. reflexivity. Qed.
Lemma upto_grows : forall j n, begins (fst (upto j)) (fst (upto (j + n))).
Proof. intros j n. unfold upto. rewrite <- firstn_more. apply grows. Qed.

Lemma one_step : forall j n s, stands s (firstn j data) (fst (upto j)) -> 0 < n -> j + n <= length data ->
  exists z s' m,
    (snd (upto (j + n)) = More -> stands s' (firstn (j + n) data) (fst (upto (j + n)))) /\
    (snd (upto (j + n)) = Damaged -> begins (fst (upto j)) z /\ begins z (fst (upto (j + n))) /\ length (fst (upto (j + n))) <= length z + buffer_size /\
       (z = fst (upto j) \/ length (fst (upto j)) + buffer_size <= length z)) /\
    forall fuel steps expect after, m <= fuel -> next_size expect after j (skipn j data) = n ->
      unpack zstate inflate expect after fuel (S steps) s (skipn j data) j (fst (upto j)) =
      match snd (upto (j + n)) with
      | More => unpack zstate inflate expect after fuel steps s' (skipn (j + n) data) (j + n) (fst (upto (j + n)))
      | Complete => Unpacked (fst (upto (j + n)))
      | Damaged => if expect then Unpacked z else DataError (length z)
      end.
Proof.
  intros j n s Hs Hn Hj.
  destruct (drains (S (length (fst (upto (j + n))))) s (firstn j data) (fst (upto j)) (firstn n (skipn j data)) Hs) as (z & s' & rv & Hd).
  - rewrite firstn_more. apply upto_grows.
  - rewrite firstn_more. unfold upto. lia.
  - exists z, s', (S (length (fst (upto (j + n))))). unfold settled in Hd. rewrite firstn_more in Hd. fold (upto (j + n)) in Hd.
    assert (H0 := Hd _ true (le_n _)). split; [|split].
    + intros E. rewrite E in H0. apply H0.
    + intros E. rewrite E in H0. apply H0.
    + intros fuel steps expect after Hf En. cbn [unpack]. unfold next_size in En. rewrite En. replace (n =? 0) with false by (symmetry; apply Nat.eqb_neq; lia).
      assert (H1 := Hd fuel expect Hf). destruct (snd (upto (j + n))).
      * destruct H1 as (-> & Hrv & _). rewrite skipn_more. destruct rv; congruence.
      * rewrite H1. reflexivity.
      * destruct H1 as (-> & _). reflexivity.
Qed.
Lemma rest_length : forall j, length (skipn j data) = length data - j.
Proof. intros j. apply skipn_length. Qed.
Lemma all_read : forall expect after fuel steps s j acc, length data <= j -> unpack zstate inflate expect after fuel (S steps) s (skipn j data) j acc = Unpacked acc.
Proof.
  intros expect after fuel steps s j acc H. cbn [unpack]. assert (E : length (skipn j data) = 0) by (rewrite rest_length; lia). rewrite E. cbn [Nat.min]. destruct (expect && _); reflexivity.
Qed.

(** data that is not damaged *)
Lemma whole : snd (decode data) <> Damaged -> forall expect after k j s, length data - j <= k -> stands s (firstn j data) (fst (upto j)) -> snd (upto j) = More ->
  exists m, forall fuel steps, m <= fuel -> length data - j < steps ->
    unpack zstate inflate expect after fuel steps s (skipn j data) j (fst (upto j)) = Unpacked (fst (decode data)).
Proof.
  intros Hgood expect after. induction k as [|k IH]; intros j s Hk Hs Hm.
  - exists 0. intros fuel steps _ Hst. destruct steps; [lia|]. rewrite all_read by lia. rewrite upto_all by lia. reflexivity.
  - destruct (Nat.le_gt_cases (length data) j) as [Hj|Hj].
    + exists 0. intros fuel steps _ Hst. destruct steps; [lia|]. rewrite all_read by lia. rewrite upto_all by lia. reflexivity.
    + destruct (next_size_bounds expect after j (skipn j data)) as (B1 & B2). rewrite rest_length in B1.
      assert (B3 : 0 < next_size expect after j (skipn j data)) by (apply B2; intros E; apply (f_equal (@length N)) in E; rewrite rest_length in E; cbn in E; lia).
      set (n := next_size expect after j (skipn j data)) in *. destruct (one_step j n s Hs B3 ltac:(lia)) as (z & s' & m & A1 & _ & A3).
      destruct (snd (upto (j + n))) eqn:E.
      * destruct (IH (j + n) s' ltac:(lia) (A1 eq_refl) E) as (m2 & H2). exists (Nat.max m m2). intros fuel steps Hf Hst. destruct steps as [|steps]; [lia|].
        rewrite (A3 fuel steps expect after ltac:(lia) eq_refl). apply H2; lia.
      * exists m. intros fuel steps Hf Hst. destruct steps as [|steps]; [lia|]. rewrite (A3 fuel steps expect after Hf eq_refl). f_equal. f_equal.
        unfold upto in *. rewrite <- (firstn_skipn (j + n) data) at 2. symmetry. apply final. congruence.
      * exfalso. apply Hgood. unfold upto in E. rewrite <- (firstn_skipn (j + n) data). rewrite final by congruence. exact E.
Qed.

(** data that is damaged at the byte number [p] *)
Variable p : nat.
Hypothesis inside : p < length data.
Hypothesis before_more : snd (upto p) = More.
Hypothesis damaged : snd (upto (p + 1)) = Damaged.
Lemma more_upto : forall j, j <= p -> snd (upto j) = More.
Proof. intros j H. unfold upto in *. replace p with (j + (p - j)) in before_more by lia. rewrite <- firstn_more in before_more. exact (more_before _ _ before_more). Qed.
Lemma damaged_upto : forall j, p < j -> upto j = decode data /\ snd (decode data) = Damaged.
Proof.
  intros j H. assert (Hd : decode data = upto (p + 1)).
  { unfold upto in *. rewrite <- (firstn_skipn (p + 1) data) at 1. apply final. congruence. }
  split; [|rewrite Hd; exact damaged]. rewrite Hd. unfold upto in *. replace j with (p + 1 + (j - (p + 1))) by lia. rewrite <- firstn_more. apply final. congruence.
Qed.
Lemma one_block : forall expect after j, (expect = true -> j < after) -> next_size expect after j (skipn j data) = Nat.min (length data - j) buffer_size.
Proof. intros expect after j H. unfold next_size. rewrite rest_length. destruct expect; [|reflexivity]. replace (after <=? j) with false by (symmetry; apply Nat.leb_gt; auto). reflexivity. Qed.
Lemma one_byte : forall after j, after <= j -> next_size true after j (skipn j data) = Nat.min 1 (length data - j).
Proof. intros after j H. unfold next_size. rewrite rest_length. cbn [andb]. replace (after <=? j) with true by (symmetry; apply Nat.leb_le; auto). reflexivity. Qed.

Lemma damaged_run : forall k i s, (i + k) * buffer_size <= p < (i + k + 1) * buffer_size -> stands s (firstn (i * buffer_size) data) (fst (upto (i * buffer_size))) ->
  let ob := fst (upto ((i + k) * buffer_size)) in
  exists z m, begins ob z /\ begins z (fst (decode data)) /\ length (fst (decode data)) <= length z + buffer_size /\ (z = ob \/ length ob + buffer_size <= length z) /\
    forall fuel steps expect after, m <= fuel -> length data - i * buffer_size < steps -> (expect = true -> (i + k) * buffer_size < after) ->
      unpack zstate inflate expect after fuel steps s (skipn (i * buffer_size) data) (i * buffer_size) (fst (upto (i * buffer_size))) = if expect then Unpacked z else DataError (length z).
Proof.
  pose proof size_positive as Hpos. induction k as [|k IH]; intros i s Hp Hs ob.
  - unfold ob. clear ob. rewrite Nat.add_0_r in *. set (j := i * buffer_size) in *. set (n := Nat.min (length data - j) buffer_size).
    destruct (one_step j n s Hs ltac:(unfold n; lia) ltac:(unfold n; lia)) as (z & s' & m & _ & A2 & A3).
    destruct (damaged_upto (j + n)) as (E1 & E2); [unfold n; nia|]. rewrite E1, E2 in *. destruct (A2 eq_refl) as (B1 & B2 & B3 & B4).
    exists z, m. split; [exact B1|]. split; [exact B2|]. split; [exact B3|]. split; [exact B4|]. intros fuel steps expect after Hf Hst Ha. destruct steps as [|steps]; [lia|].
    apply A3; [exact Hf|]. apply one_block. exact Ha.
  - set (j := i * buffer_size) in *. assert (Hj : j + buffer_size <= p) by (unfold j; nia).
    destruct (one_step j buffer_size s Hs Hpos ltac:(lia)) as (z0 & s' & m & A1 & _ & A3).
    assert (Em : snd (upto (j + buffer_size)) = More) by (apply more_upto; lia). rewrite Em in *. specialize (A1 eq_refl).
    replace (j + buffer_size) with (S i * buffer_size) in * by (unfold j; lia).
    destruct (IH (S i) s' ltac:(nia) A1) as (z & m2 & B1 & B2 & B3 & B4 & B5). replace (S i + k) with (i + S k) in * by lia.
    exists z, (Nat.max m m2). split; [exact B1|]. split; [exact B2|]. split; [exact B3|]. split; [exact B4|]. intros fuel steps expect after Hf Hst Ha. destruct steps as [|steps]; [lia|].
    rewrite (A3 fuel steps expect after ltac:(lia)); [apply B5; [lia|unfold j in *; nia|exact Ha]|]. rewrite one_block by (intros E; specialize (Ha E); unfold j; nia). lia.
Qed.

(** byte by byte *)
Hypothesis little : length (fst (upto (p + 1))) < length (fst (upto p)) + buffer_size.
Lemma recovering : forall after, forall k j s, p - j <= k -> j <= p -> (after <= j \/ exists i, j = i * buffer_size /\ after <= p / buffer_size * buffer_size) ->
  stands s (firstn j data) (fst (upto j)) ->
  exists m, forall fuel steps, m <= fuel -> length data - j < steps ->
    unpack zstate inflate true after fuel steps s (skipn j data) j (fst (upto j)) = Unpacked (fst (upto p)).
Proof.
  pose proof size_positive as Hpos. intros after.
  assert (Hlast : forall s, after <= p -> stands s (firstn p data) (fst (upto p)) -> exists m, forall fuel steps, m <= fuel -> length data - p < steps ->
    unpack zstate inflate true after fuel steps s (skipn p data) p (fst (upto p)) = Unpacked (fst (upto p))).
  { intros s Ha Hs. destruct (one_step p 1 s Hs ltac:(lia) ltac:(lia)) as (z & s' & m & _ & A2 & A3). rewrite damaged in *. destruct (A2 eq_refl) as (B1 & B2 & B3 & B4).
    exists m. intros fuel steps Hf Hst. destruct steps as [|steps]; [lia|]. rewrite A3; [|exact Hf|rewrite one_byte by exact Ha; lia]. f_equal. destruct B4 as [B4|B4]; [exact B4|]. apply begins_length in B2. lia. }
  assert (Hdiv : p / buffer_size * buffer_size <= p) by (rewrite Nat.mul_comm; apply Nat.mul_div_le; lia).
  induction k as [|k IH]; intros j s Hk Hj Ha Hs.
  - assert (j = p) by lia. subst j. apply Hlast; [|exact Hs]. destruct Ha as [Ha|(i & _ & Ha)]; lia.
  - destruct (Nat.eq_dec j p) as [->|Hne]; [apply Hlast; [|exact Hs]; destruct Ha as [Ha|(i & _ & Ha)]; lia|].
    assert (Hnext : forall n, 0 < n -> j + n <= p -> next_size true after j (skipn j data) = n -> (after <= j + n \/ exists i, j + n = i * buffer_size /\ after <= p / buffer_size * buffer_size) ->
      exists m, forall fuel steps, m <= fuel -> length data - j < steps -> unpack zstate inflate true after fuel steps s (skipn j data) j (fst (upto j)) = Unpacked (fst (upto p))).
    { intros n Hn Hjn En Ha'. destruct (one_step j n s Hs Hn ltac:(lia)) as (z & s' & m & A1 & _ & A3). assert (Em : snd (upto (j + n)) = More) by (apply more_upto; lia). rewrite Em in *.
      destruct (IH (j + n) s' ltac:(lia) Hjn Ha' (A1 eq_refl)) as (m2 & H2). exists (Nat.max m m2). intros fuel steps Hf Hst. destruct steps as [|steps]; [lia|]. rewrite (A3 fuel steps true after ltac:(lia) En). apply H2; lia. }
    destruct (Nat.le_gt_cases after j) as [Haj|Haj].
    + apply (Hnext 1); [lia|lia|rewrite one_byte by exact Haj; lia|left; lia].
    + destruct Ha as [Ha|(i & Ei & Ha)]; [lia|]. assert (Hi : (i + 1) * buffer_size <= p) by (assert (i < p / buffer_size) by nia; nia).
      apply (Hnext buffer_size); [exact Hpos|lia|rewrite one_block by auto; lia|right; exists (i + 1); split; [lia|exact Ha]].
Qed.
End Data.

(** ** the whole call *)
Lemma start : forall data, stands init (firstn 0 data) (fst (upto data 0)) /\ fst (upto data 0) = [] /\ snd (upto data 0) = More.
Proof. intros data. unfold upto. cbn [firstn]. rewrite (proj1 format). split; [exact (proj1 keeps)|split; reflexivity]. Qed.
Lemma runs : forall data expect after r,
  (exists m, forall fuel steps, m <= fuel -> length data - 0 < steps -> unpack zstate inflate expect after fuel steps init (skipn 0 data) 0 (fst (upto data 0)) = r) ->
  exists m, forall fuel, m <= fuel -> unpack zstate inflate expect after fuel (S (length data)) init data 0 [] = r.
Proof.
  intros data expect after r (m & H). exists m. intros fuel Hf. specialize (H fuel (S (length data)) Hf ltac:(lia)). destruct (start data) as (_ & E & _). rewrite E in H. exact H.
Qed.
Theorem inflate_whole : forall data, snd (decode data) <> Damaged -> results_in (fun fuel => zlib_inflate zstate inflate init fuel data) (Unpacked (fst (decode data))).
Proof.
  intros data H. destruct (start data) as (S1 & _ & S3). destruct (runs data false (length data) _ (whole data H false (length data) (length data - 0) 0 init (le_n _) S1 S3)) as (m & Hm).
  exists m. intros fuel Hf. unfold zlib_inflate, inflate_after. rewrite Nat.eqb_refl. cbn [negb]. rewrite Hm by exact Hf. reflexivity.
Qed.
Theorem inflate_damaged : forall data p, p < length data -> snd (upto data p) = More -> snd (upto data (p + 1)) = Damaged ->
  length (fst (upto data (p + 1))) < length (fst (upto data p)) + buffer_size ->
  let k := p / buffer_size in let ob := fst (upto data (k * buffer_size)) in
  exists z, begins ob z /\ begins z (fst (decode data)) /\ length (fst (decode data)) <= length z + buffer_size /\ (z = ob \/ length ob + buffer_size <= length z) /\
    results_in (fun fuel => zlib_inflate zstate inflate init fuel data)
      (if length z =? 0 then DataError 0 else if length z =? length data then DataError (length z)
       else if length z <=? k * buffer_size then Unpacked (fst (upto data p)) else Unpacked z).
Proof.
  intros data p Hp Hmore Hbad Hl k ob. pose proof size_positive as Hpos. destruct (start data) as (S1 & S2 & S3).
  assert (Hk : (0 + k) * buffer_size <= p < (0 + k + 1) * buffer_size).
  { pose proof (Nat.div_mod p buffer_size ltac:(lia)). pose proof (Nat.mod_upper_bound p buffer_size ltac:(lia)). unfold k. nia. }
  destruct (damaged_run data p Hp Hmore Hbad k 0 init Hk S1) as (z & m & B1 & B2 & B3 & B4 & B5). exists z. split; [exact B1|]. split; [exact B2|]. split; [exact B3|]. split; [exact B4|].
  cbn [Nat.mul Nat.add skipn] in B5. rewrite S2 in B5.
  assert (Hfirst : forall fuel, m <= fuel -> inflate_after zstate inflate init (length data) fuel data = DataError (length z)).
  { intros fuel Hf. unfold inflate_after. rewrite Nat.eqb_refl. cbn [negb]. apply (B5 fuel (S (length data)) false); [exact Hf|lia|discriminate]. }
  destruct (Nat.eqb_spec (length z) 0) as [Ez|Ez].
  { exists m. intros fuel Hf. unfold zlib_inflate. rewrite Hfirst by exact Hf. replace (length z =? 0) with true by (symmetry; apply Nat.eqb_eq; exact Ez). reflexivity. }
  assert (Hsecond : forall r, (exists m', forall fuel, m' <= fuel -> inflate_after zstate inflate init (length z) fuel data = r) -> results_in (fun fuel => zlib_inflate zstate inflate init fuel data) r).
  { intros r (m' & H). exists (Nat.max m m'). intros fuel Hf. unfold zlib_inflate. rewrite Hfirst by lia. replace (length z =? 0) with false by (symmetry; apply Nat.eqb_neq; exact Ez). apply H. lia. }
  apply Hsecond. unfold inflate_after. destruct (Nat.eqb_spec (length z) (length data)) as [Ed|Ed].
  { exists m. intros fuel Hf. replace (length data =? length z) with true by (symmetry; apply Nat.eqb_eq; lia). cbn [negb]. apply (B5 fuel (S (length data)) false); [exact Hf|lia|discriminate]. }
  replace (length data =? length z) with false by (symmetry; apply Nat.eqb_neq; lia). cbn [negb]. destruct (Nat.leb_spec (length z) (k * buffer_size)) as [Hle|Hgt].
  - apply runs. apply (recovering data p Hp Hmore Hbad Hl (length z) p 0 init); [lia|lia|right; exists 0; split; [reflexivity|exact Hle]|exact S1].
  - exists m. intros fuel Hf. apply (B5 fuel (S (length data)) true); [exact Hf|lia|intros _; exact Hgt].
Qed.

(** nothing is made up *)
Lemma sound : forall data expect after k j s, length data - j <= k -> stands s (firstn j data) (fst (upto data j)) -> snd (upto data j) = More ->
  exists r, (match r with Unpacked got => begins got (fst (decode data)) | DataError n => n <= length (fst (decode data)) | _ => False end) /\
    exists m, forall fuel steps, m <= fuel -> length data - j < steps -> unpack zstate inflate expect after fuel steps s (skipn j data) j (fst (upto data j)) = r.
Proof.
  intros data expect after. induction k as [|k IH]; intros j s Hk Hs Hm.
  - exists (Unpacked (fst (decode data))). split; [apply begins_refl|]. exists 0. intros fuel steps _ Hst. destruct steps; [lia|]. rewrite all_read by lia. rewrite upto_all by lia. reflexivity.
  - destruct (Nat.le_gt_cases (length data) j) as [Hj|Hj].
    + exists (Unpacked (fst (decode data))). split; [apply begins_refl|]. exists 0. intros fuel steps _ Hst. destruct steps; [lia|]. rewrite all_read by lia. rewrite upto_all by lia. reflexivity.
    + destruct (next_size_bounds expect after j (skipn j data)) as (B1 & B2). rewrite rest_length in B1.
      assert (B3 : 0 < next_size expect after j (skipn j data)) by (apply B2; intros E; apply (f_equal (@length N)) in E; rewrite rest_length in E; cbn in E; lia).
      set (n := next_size expect after j (skipn j data)) in *. destruct (one_step data j n s Hs B3 ltac:(lia)) as (z & s' & m & A1 & A2 & A3).
      assert (Hg : begins (fst (upto data (j + n))) (fst (decode data))) by (replace (decode data) with (upto data (j + n + length data)) by (apply upto_all; lia); apply upto_grows).
      destruct (snd (upto data (j + n))) eqn:E.
      * destruct (IH (j + n) s' ltac:(lia) (A1 eq_refl) E) as (r & Hr & m2 & H2). exists r. split; [exact Hr|]. exists (Nat.max m m2). intros fuel steps Hf Hst. destruct steps as [|steps]; [lia|].
        rewrite (A3 fuel steps expect after ltac:(lia) eq_refl). apply H2; lia.
      * exists (Unpacked (fst (upto data (j + n)))). split; [exact Hg|]. exists m. intros fuel steps Hf Hst. destruct steps as [|steps]; [lia|]. exact (A3 fuel steps expect after Hf eq_refl).
      * destruct (A2 eq_refl) as (_ & C2 & _). exists (if expect then Unpacked z else DataError (length z)). split.
        { destruct expect; [exact (begins_trans _ _ _ _ C2 Hg)|]. apply begins_length. exact (begins_trans _ _ _ _ C2 Hg). }
        exists m. intros fuel steps Hf Hst. destruct steps as [|steps]; [lia|]. exact (A3 fuel steps expect after Hf eq_refl).
Qed.
Theorem inflate_sound : forall data, exists r, results_in (fun fuel => zlib_inflate zstate inflate init fuel data) r /\
  match r with Unpacked got => begins got (fst (decode data)) | DataError n => n <= length (fst (decode data)) | _ => False end.
Proof.
  intros data. destruct (start data) as (S1 & _ & S3). unfold zlib_inflate.
  assert (Hrun : forall after, exists r, (match r with Unpacked got => begins got (fst (decode data)) | DataError n => n <= length (fst (decode data)) | _ => False end) /\
    exists m, forall fuel, m <= fuel -> inflate_after zstate inflate init after fuel data = r).
  { intros after. destruct (sound data (negb (length data =? after)) after (length data - 0) 0 init (le_n _) S1 S3) as (r & Hr & Hm). exists r. split; [exact Hr|]. apply runs. exact Hm. }
  destruct (Hrun (length data)) as (r1 & Hr1 & m1 & H1). destruct r1 as [got|size| |]; try (destruct Hr1; fail).
  - exists (Unpacked got). split; [exists m1; intros fuel Hf; rewrite H1 by exact Hf; reflexivity|exact Hr1].
  - destruct (Nat.eqb_spec size 0) as [->|Hs].
    + exists (DataError 0). split; [exists m1; intros fuel Hf; rewrite H1 by exact Hf; reflexivity|lia].
    + destruct (Hrun size) as (r2 & Hr2 & m2 & H2). exists r2. split; [|exact Hr2]. exists (Nat.max m1 m2). intros fuel Hf. rewrite H1 by lia. replace (size =? 0) with false by (symmetry; apply Nat.eqb_neq; exact Hs). apply H2. lia.
Qed.
End Inflate.

Section Deflate.
Variable decode : decoder.
Variable zstate : Type.
Variable deflate : zstate -> bytes -> nat -> zflush -> zstatus * bytes * bytes * zstate.
Variable stands : zstate -> bool -> list N -> list N -> Prop.
Variable init : zstate.
Variable bound : nat -> nat.
Hypothesis keeps : deflate_keeps decode zstate deflate stands init bound.

Lemma presses : forall m flush s f c o input, stands s f c o -> bound (length (c ++ input)) < m + length o -> (flush = ZFinish -> input = []) -> (f = true -> input = [] /\ flush = ZFinish) ->
  exists s' rv o', (forall fuel, m <= fuel -> press zstate deflate flush fuel s input o = Next rv s' o') /\ stands s' (match flush with ZFinish => true | ZNoFlush => f end) (c ++ input) o' /\ length o' <= bound (length (c ++ input)) /\
    match flush with ZFinish => rv = ZStreamEnd /\ decode o' = (c ++ input, Complete) | ZNoFlush => rv <> ZStreamEnd end.
Proof.
  induction m as [|m IH]; intros flush s f c o input Hs Hm Hfl Hff.
  - exfalso. pose proof (proj2 (proj2 keeps) s f c o [] 1 flush Hs ltac:(lia) (fun E => conj eq_refl (proj2 (Hff E)))) as K. destruct (deflate s [] 1 flush) as [[[rv out] rest] s']. destruct K as (used & Eu & _ & _ & Hb & _).
    destruct used; [|discriminate]. rewrite app_nil_r in Hb. rewrite app_length in Hb. pose proof (proj1 (proj2 keeps) (length c) (length (c ++ input)) ltac:(rewrite app_length; lia)). lia.
  - pose proof (proj2 (proj2 keeps) s f c o input buffer_size flush Hs size_positive Hff) as K. destruct (deflate s input buffer_size flush) as [[[rv out] rest] s'] eqn:Ed.
    destruct K as (used & Einput & Hlen & Hs' & Hb & Hrv). pose proof size_positive as Hpos.
    assert (Eci : c ++ input = (c ++ used) ++ rest) by (rewrite Einput, app_assoc; reflexivity).
    assert (Hmono : bound (length (c ++ used)) <= bound (length (c ++ input))) by (apply (proj1 (proj2 keeps)); rewrite Eci, !app_length; lia).
    assert (Hok : rv = ZOk \/ rv = ZBufError \/ rv = ZStreamEnd) by (destruct rv; auto; destruct Hrv).
    assert (Hstep : forall fuel, press zstate deflate flush (S fuel) s input o = if length out =? buffer_size then press zstate deflate flush fuel s' rest (o ++ out) else Next rv s' (o ++ out)).
    { intros fuel. cbn [press]. rewrite Ed. destruct Hok as [-> | [-> | ->]]; reflexivity. }
    destruct (Nat.eqb_spec (length out) buffer_size) as [Hout|Hout].
    + destruct (IH flush s' _ (c ++ used) (o ++ out) rest Hs') as (s2 & rv2 & o2 & H1 & H2).
      * rewrite <- Eci, (app_length o out). lia.
      * intros E. specialize (Hfl E). subst input. destruct used; [|discriminate]. symmetry. exact Einput.
      * intros E. assert (Ef : flush = ZFinish) by (destruct flush; [apply Hff; exact E|reflexivity]). split; [|exact Ef]. specialize (Hfl Ef). subst input. destruct used; [|discriminate]. symmetry. exact Einput.
      * exists s2, rv2, o2. split; [intros fuel Hf; destruct fuel as [|fuel]; [lia|]; rewrite Hstep; apply H1; lia|]. rewrite Eci. destruct flush; exact H2.
    + exists s', rv, (o ++ out). split; [intros fuel Hf; destruct fuel as [|fuel]; [lia|]; apply Hstep|].
      assert (Hrest : rest = []) by (destruct Hok as [-> | [-> | ->]]; [destruct Hrv as [Hrv|Hrv]; [congruence|apply Hrv]|destruct Hrv as [Hrv|Hrv]; [congruence|apply Hrv]|apply Hrv]). subst rest. rewrite app_nil_r in Eci. rewrite Eci. split; [exact Hs'|]. split; [exact Hb|].
      destruct flush; destruct rv; try (destruct Hrv; fail); try discriminate; try (destruct Hrv as [Hrv|(_ & Hrv)]; congruence); try (destruct Hrv as (Hrv & _); discriminate).
      split; [reflexivity|apply Hrv].
Qed.
Lemma packs : forall k data s c o, length data <= k -> stands s false c o ->
  exists m packed, decode packed = (c ++ data, Complete) /\ forall fuel steps, m <= fuel -> length data < steps -> pack zstate deflate fuel steps s data o = Unpacked packed.
Proof.
  pose proof size_positive as Hpos.
  induction k as [|k IH]; intros data s c o Hk Hs.
  - destruct data; [|cbn in Hk; lia]. destruct (presses (S (bound (length (c ++ [])))) ZFinish s false c o [] Hs ltac:(lia) (fun _ => eq_refl) ltac:(discriminate)) as (s' & rv & o' & H1 & _ & _ & -> & E).
    eexists. exists o'. split; [exact E|]. intros fuel steps Hf Hst. destruct steps as [|steps]; [lia|]. cbn [pack length Nat.min Nat.eqb firstn]. rewrite H1 by exact Hf. reflexivity.
  - destruct (Nat.eq_dec (length data) 0) as [E0|E0]; [apply IH; [lia|exact Hs]|].
    set (n := Nat.min (length data) buffer_size). assert (Hn : 0 < n) by (unfold n; lia).
    destruct (presses (S (bound (length (c ++ firstn n data)))) ZNoFlush s false c o (firstn n data) Hs ltac:(lia) ltac:(discriminate) ltac:(discriminate)) as (s' & rv & o' & H1 & Hs' & _ & Hrv).
    destruct (IH (skipn n data) s' (c ++ firstn n data) o') as (m & packed & E & H2); [rewrite skipn_length; lia|exact Hs'|]. rewrite <- app_assoc, firstn_skipn in E.
    exists (Nat.max (S (bound (length (c ++ firstn n data)))) m), packed. split; [exact E|]. intros fuel steps Hf Hst. destruct steps as [|steps]; [lia|]. cbn [pack]. fold n.
    replace (n =? 0) with false by (symmetry; apply Nat.eqb_neq; lia). rewrite H1 by lia. assert (H3 := H2 fuel steps ltac:(lia) ltac:(rewrite skipn_length; lia)). destruct rv; congruence.
Qed.
Theorem deflate_packs : forall data, exists packed, decode packed = (data, Complete) /\ results_in (fun fuel => zlib_deflate zstate deflate init fuel data) (Unpacked packed).
Proof.
  intros data. destruct (packs (length data) data init [] [] (le_n _) (proj1 keeps)) as (m & packed & E & H). exists packed. split; [exact E|]. exists m. intros fuel Hf. apply H; [exact Hf|lia].
Qed.
End Deflate.

(** C80: compressed data of any size. *)
From Coq Require Import List NArith Arith Bool Lia.
From Verif.Model Require Import Base Zlib.
From Verif.Spec Require Import Zlib.
From Verif.Proof Require Import Zlib.
Import ListNotations.
Local Open Scope nat_scope.

Section C80.
Variable decode : decoder.
Hypothesis format : is_format decode.
Variable zstate : Type.
Variable inflate : zstate -> bytes -> nat -> zstatus * bytes * bytes * zstate.
Variable stands : zstate -> list N -> list N -> Prop.
Variable init : zstate.
Hypothesis keeps : inflate_keeps decode zstate inflate stands init.
Let unpack_it (data : bytes) (fuel : nat) : unpacked := zlib_inflate zstate inflate init fuel data.

(** Complete data is decoded whole, however many blocks it and its output take and whatever follows it. *)
Theorem C80_decompresses : forall data content, decode data = (content, Complete) -> results_in (unpack_it data) (Unpacked content).
Proof. intros data content E. pose proof (inflate_whole decode format zstate inflate stands init keeps data) as H. rewrite E in H. apply H. discriminate. Qed.

(** What is compressed comes back. *)
Theorem C80_round_trip : forall zstate' deflate stands' init' bound, deflate_keeps decode zstate' deflate stands' init' bound ->
  forall data, exists packed, results_in (fun fuel => zlib_deflate zstate' deflate init' fuel data) (Unpacked packed) /\
    decode packed = (data, Complete) /\ results_in (unpack_it packed) (Unpacked data).
Proof.
  intros zstate' deflate stands' init' bound Hd data. destruct (deflate_packs decode zstate' deflate stands' init' bound Hd data) as (packed & E & H).
  exists packed. split; [exact H|]. split; [exact E|]. apply C80_decompresses. exact E.
Qed.

(** Whatever the data, the call ends, with an error or with data that is really there. *)
Theorem C80_nothing_made_up : forall data, exists r, results_in (unpack_it data) r /\
  ((exists n, r = DataError n) \/ exists got, r = Unpacked got /\ begins got (fst (decode data))).
Proof.
  intros data. destruct (inflate_sound decode format zstate inflate stands init keeps data) as (r & H & Hr). exists r. split; [exact H|].
  destruct r as [got|n| |]; try (destruct Hr; fail); [right; exists got; auto|left; exists n; reflexivity].
Qed.

(** Damaged data, exactly.  The byte number [p] is the one that shows the damage, and a single byte stands for less than 4096 bytes of
    content.  [z] is what the first attempt had when it met the damage: the content of the whole blocks in front of it, and of the damaged
    block as many whole buffers as it fills.  Everything in front of the damage comes back only if this is neither empty nor longer than
    these blocks. *)
Theorem C80_damaged : forall data p, p < length data ->
  snd (decode (firstn p data)) = More -> snd (decode (firstn (p + 1) data)) = Damaged ->
  length (fst (decode (firstn (p + 1) data))) < length (fst (decode (firstn p data))) + 4096 ->
  let before := p / 4096 * 4096 in let found := fst (decode (firstn before data)) in
  exists z, begins found z /\ begins z (fst (decode data)) /\ length (fst (decode data)) <= length z + 4096 /\ (z = found \/ length found + 4096 <= length z) /\
    results_in (unpack_it data)
      (if length z =? 0 then DataError 0 else if length z =? length data then DataError (length z)
       else if length z <=? before then Unpacked (fst (decode (firstn p data))) else Unpacked z).
Proof. exact (inflate_damaged decode format zstate inflate stands init keeps). Qed.

(** Content that hardly shrinks: everything in front of the damage comes back.  Missing for the full claim: content that was compressed,
    see the refutations. *)
Theorem C80_recovers_partial : forall data p, p < length data ->
  snd (decode (firstn p data)) = More -> snd (decode (firstn (p + 1) data)) = Damaged ->
  length (fst (decode (firstn (p + 1) data))) < length (fst (decode (firstn p data))) + 4096 ->
  let before := p / 4096 * 4096 in let found := fst (decode (firstn before data)) in
  0 < length found <= before -> length (fst (decode data)) < length found + 4096 ->
  results_in (unpack_it data) (Unpacked (fst (decode (firstn p data)))).
Proof.
  intros data p Hp H1 H2 H3 before found H4 H5. assert (Hb : before <= p) by (unfold before; rewrite Nat.mul_comm; apply Nat.mul_div_le; discriminate). destruct (C80_damaged data p Hp H1 H2 H3) as (z & B1 & B2 & B3 & B4 & R). fold before in B1, B4, R; fold found in B1, B4, R.
  assert (Ez : z = found) by (destruct B4 as [B4|B4]; [exact B4|apply begins_length in B2; lia]). subst z.
  replace (length found =? 0) with false in R by (symmetry; apply Nat.eqb_neq; lia). replace (length found =? length data) with false in R by (symmetry; apply Nat.eqb_neq; lia).
  replace (length found <=? before) with true in R by (symmetry; apply Nat.leb_le; lia). exact R.
Qed.

(** Finding: data that was cut off is taken for complete data: what there is comes back without an error. *)
Theorem C80_cut_off_refuted : forall data part, decode data = (part, More) -> results_in (unpack_it data) (Unpacked part).
Proof. intros data part E. pose proof (inflate_whole decode format zstate inflate stands init keeps data) as H. rewrite E in H. apply H. discriminate. Qed.

(** Finding: when the damage is met before 4096 bytes were decoded, nothing comes back, however much could be decoded. *)
Theorem C80_small_refuted : forall data p, p < length data -> p < 4096 ->
  snd (decode (firstn p data)) = More -> snd (decode (firstn (p + 1) data)) = Damaged -> length (fst (decode data)) < 4096 ->
  results_in (unpack_it data) (DataError 0).
Proof.
  intros data p Hp Hp2 H1 H2 H3. destruct (C80_damaged data p Hp H1 H2) as (z & B1 & B2 & B3 & B4 & R).
  - pose proof (upto_grows decode format data (p + 1) (length data)) as G. rewrite (upto_all decode data (p + 1 + length data)) in G by lia. apply begins_length in G. change (upto decode data (p + 1)) with (decode (firstn (p + 1) data)) in G. lia.
  - rewrite Nat.div_small in * by lia. cbn [Nat.mul firstn] in *. rewrite (proj1 format) in *. cbn [fst] in *.
    assert (Ez : z = []) by (destruct B4 as [B4|B4]; [exact B4|cbn [length] in B4; apply begins_length in B2; lia]). subst z. exact R.
Qed.

(** Finding: the size of the content is taken for a place in the compressed data.  When the content of the blocks in front of the damage
    is longer than they are, the second attempt ends like the first one and what the damaged block holds is lost ... *)
Theorem C80_lost_refuted : forall data p, p < length data ->
  snd (decode (firstn p data)) = More -> snd (decode (firstn (p + 1) data)) = Damaged ->
  length (fst (decode (firstn (p + 1) data))) < length (fst (decode (firstn p data))) + 4096 ->
  let before := p / 4096 * 4096 in let found := fst (decode (firstn before data)) in
  before < length found -> length found <> length data -> length (fst (decode data)) < length found + 4096 ->
  results_in (unpack_it data) (Unpacked found).
Proof.
  intros data p Hp H1 H2 H3 before found H4 H5 H6. destruct (C80_damaged data p Hp H1 H2 H3) as (z & B1 & B2 & B3 & B4 & R). fold before in B1, B4, R; fold found in B1, B4, R.
  assert (Ez : z = found) by (destruct B4 as [B4|B4]; [exact B4|apply begins_length in B2; lia]). subst z.
  replace (length found =? 0) with false in R by (symmetry; apply Nat.eqb_neq; lia). replace (length found =? length data) with false in R by (symmetry; apply Nat.eqb_neq; lia).
  replace (length found <=? before) with false in R by (symmetry; apply Nat.leb_gt; lia). exact R.
Qed.
(** ... and when it happens to be as long as the compressed data, nothing comes back at all. *)
Theorem C80_same_length_refuted : forall data p, p < length data ->
  snd (decode (firstn p data)) = More -> snd (decode (firstn (p + 1) data)) = Damaged ->
  length (fst (decode (firstn (p + 1) data))) < length (fst (decode (firstn p data))) + 4096 ->
  let found := fst (decode (firstn (p / 4096 * 4096) data)) in
  length found = length data -> length (fst (decode data)) < length found + 4096 ->
  results_in (unpack_it data) (DataError (length data)).
Proof.
  intros data p Hp H1 H2 H3 found H5 H6. destruct (C80_damaged data p Hp H1 H2 H3) as (z & B1 & B2 & B3 & B4 & R). fold found in B1, B4, R.
  assert (Ez : z = found) by (destruct B4 as [B4|B4]; [exact B4|apply begins_length in B2; lia]). subst z. rewrite H5 in R.
  replace (length data =? 0) with false in R by (symmetry; apply Nat.eqb_neq; lia). rewrite Nat.eqb_refl in R. exact R.
Qed.
End C80.

(** *** A concrete format: a count and a byte, count 0 is the end and counts from 250 are damage *)
Fixpoint runs_decode (l : list N) : list N * progress :=
  match l with
  | [] => ([], More)
  | n :: t =>
      if (n =? 0)%N then ([], Complete)
      else if (250 <=? n)%N then ([], Damaged)
      else match t with
           | [] => ([], More)
           | b :: t' => let '(o, p) := runs_decode t' in (repeat b (N.to_nat n) ++ o, p)
           end
  end.
Lemma runs_format : is_format runs_decode.
Proof.
  split; [reflexivity|]. intros p q. remember (length p) as k eqn:Ek. assert (Hk : length p <= k) by lia. clear Ek. revert p Hk. induction k as [|k IH]; intros p Hk.
  - destruct p; [|cbn in Hk; lia]. exists (fst (runs_decode q)). reflexivity.
  - destruct p as [|n [|b t]]; [exists (fst (runs_decode q)); reflexivity| |].
    + cbn [app runs_decode]. destruct (n =? 0)%N; [reflexivity|]. destruct (250 <=? n)%N; [reflexivity|]. cbn [fst snd]. exists (fst (match q with [] => ([], More) | b :: t' => let '(o, p) := runs_decode t' in (repeat b (N.to_nat n) ++ o, p) end)). reflexivity.
    + cbn [app runs_decode]. destruct (n =? 0)%N; [reflexivity|]. destruct (250 <=? n)%N; [reflexivity|]. specialize (IH t ltac:(cbn in Hk; lia)).
      destruct (runs_decode t) as [o s] eqn:E. destruct (runs_decode (t ++ q)) as [o' s'] eqn:E'. cbn [fst snd] in *. destruct s; [|injection IH as -> ->; reflexivity..].
      destruct IH as (c & ->). exists c. rewrite app_assoc. reflexivity.
Qed.
(** zlib for any format: all that was taken and given is kept *)
Definition plain_inflate (decode : decoder) (s : list N * list N) (input : bytes) (room : nat) : zstatus * bytes * bytes * (list N * list N) :=
  let '(c, o) := s in
  let full := decode (c ++ input) in
  let out := firstn room (skipn (length o) (fst full)) in
  (if length out =? room then ZOk else match snd full with More => ZOk | Complete => ZStreamEnd | Damaged => ZDataError end,
   out, [], (c ++ input, o ++ out)).
Definition plain_stands (decode : decoder) (s : list N * list N) (c o : list N) : Prop := s = (c, o) /\ begins o (fst (decode c)).
Lemma plain_keeps : forall decode, is_format decode -> inflate_keeps decode _ (plain_inflate decode) (plain_stands decode) ([], []).
Proof.
  intros decode F. split; [split; [reflexivity|exists (fst (decode [])); reflexivity]|]. intros s c o input room (-> & Hb) Hr. unfold plain_inflate.
  set (full := decode (c ++ input)). set (out := firstn room (skipn (length o) (fst full))).
  assert (Hg : begins o (fst full)) by (eapply begins_trans; [exact Hb|apply (grows decode F)]).
  assert (Hs : begins (o ++ out) (fst full)).
  { destruct Hg as (r & E). exists (skipn room r). unfold out. rewrite E, skipn_app, Nat.sub_diag, skipn_all2 by lia. cbn [skipn app]. rewrite <- app_assoc, firstn_skipn. reflexivity. }
  assert (Hall : length out <> room -> o ++ out = fst full).
  { intros Hn. destruct Hg as (r & E). unfold out in *. rewrite E in *. rewrite skipn_app, Nat.sub_diag, skipn_all2 in * by lia. cbn [skipn app] in *. rewrite firstn_length in Hn. rewrite firstn_all2 by lia. reflexivity. }
  exists input. rewrite app_nil_r. split; [reflexivity|]. split; [apply firstn_le_length|]. split; [split; [reflexivity|exact Hs]|]. split; [exact Hs|]. fold full.
  destruct (Nat.eqb_spec (length out) room) as [E|E]; [left; exact E|]. destruct (snd full) eqn:Es.
  - right. split; [reflexivity|]. split; [reflexivity|auto].
  - split; [reflexivity|auto].
  - split; [reflexivity|auto].
Qed.
Definition runs_encode (l : list N) : list N := flat_map (fun b => [1%N; b]) l ++ [0%N].
Lemma runs_round_trip : forall l, runs_decode (runs_encode l) = (l, Complete).
Proof. induction l as [|b l IH]; [reflexivity|]. unfold runs_encode in *. cbn [flat_map app runs_decode]. change (1 =? 0)%N with false. change (250 <=? 1)%N with false. cbn iota. rewrite IH. reflexivity. Qed.
Definition plain_deflate (s : list N * nat) (input : bytes) (room : nat) (flush : zflush) : zstatus * bytes * bytes * (list N * nat) :=
  let '(c, given) := s in
  match flush with
  | ZNoFlush => (ZOk, [], [], (c ++ input, given))
  | ZFinish => let out := firstn room (skipn given (runs_encode (c ++ input))) in
               (if length out =? room then ZOk else ZStreamEnd, out, [], (c ++ input, given + length out))
  end.
Definition deflate_stands (s : list N * nat) (f : bool) (c o : list N) : Prop := s = (c, length o) /\ begins o (runs_encode c) /\ (f = false -> o = []).
Lemma runs_deflate : deflate_keeps runs_decode _ plain_deflate deflate_stands ([], 0) (fun n => 2 * n + 1).
Proof.
  split; [split; [reflexivity|split; [exists [0%N]; reflexivity|reflexivity]]|]. split; [intros; lia|]. intros s f c o input room flush (-> & Hb & Hf) Hr Hff. unfold plain_deflate.
  assert (Hlen : forall l, length (runs_encode l) = 2 * length l + 1) by (intros l; unfold runs_encode; rewrite app_length; induction l as [|b l IH]; [reflexivity|cbn [flat_map app length] in *; lia]).
  destruct flush.
  - assert (Eo : o = []) by (apply Hf; destruct f; [destruct (Hff eq_refl); discriminate|reflexivity]). subst o. exists input. rewrite app_nil_r. split; [reflexivity|]. split; [cbn; lia|]. split; [|split; [cbn; lia|right; split; reflexivity]].
    split; [reflexivity|]. split; [exists (runs_encode (c ++ input)); reflexivity|reflexivity].
  - set (full := runs_encode (c ++ input)). set (out := firstn room (skipn (length o) full)).
    assert (Hg : begins o full).
    { destruct f; [destruct (Hff eq_refl) as (-> & _); unfold full; rewrite app_nil_r; exact Hb|]. rewrite Hf by reflexivity. exists full. reflexivity. }
    assert (Hs : begins (o ++ out) full).
    { destruct Hg as (r & E). exists (skipn room r). unfold out. rewrite E, skipn_app, Nat.sub_diag, skipn_all2 by lia. cbn [skipn app]. rewrite <- app_assoc, firstn_skipn. reflexivity. }
    assert (Hall : length out <> room -> o ++ out = full).
    { intros Hn. destruct Hg as (r & E). unfold out in *. rewrite E in *. rewrite skipn_app, Nat.sub_diag, skipn_all2 in * by lia. cbn [skipn app] in *. rewrite firstn_length in Hn. rewrite firstn_all2 by lia. reflexivity. }
    exists input. rewrite app_nil_r. split; [reflexivity|]. split; [apply firstn_le_length|]. split; [split; [rewrite app_length; reflexivity|split; [exact Hs|discriminate]]|].
    split; [apply begins_length in Hs; unfold full in Hs; rewrite Hlen in Hs; exact Hs|]. destruct (Nat.eqb_spec (length out) room) as [E|E]; [left; exact E|].
    split; [reflexivity|]. split; [reflexivity|]. rewrite Hall by exact E. unfold full. apply runs_round_trip.
Qed.

Definition runs (k : N) (l : list N) : list N := flat_map (fun b => [k; b]) l.
Lemma runs_length : forall k l, length (runs k l) = 2 * length l.
Proof. intros k l. unfold runs. induction l as [|b l IH]; [reflexivity|]. cbn [flat_map app length]. lia. Qed.
Lemma firstn_runs : forall k n l, firstn (n + n) (runs k l) = runs k (firstn n l).
Proof.
  intros k n. induction n as [|n IH]; intros l; [reflexivity|]. destruct l as [|b l]; [apply firstn_nil|].
  rewrite Nat.add_succ_r. cbn [Nat.add]. unfold runs in *. cbn [flat_map app firstn]. rewrite IH. reflexivity.
Qed.
Lemma decode_runs : forall k l rest, (0 < k < 250)%N ->
  runs_decode (runs k l ++ rest) = (flat_map (fun b => repeat b (N.to_nat k)) l ++ fst (runs_decode rest), snd (runs_decode rest)).
Proof.
  intros k l rest Hk. induction l as [|b l IH]; [cbn; destruct (runs_decode rest); reflexivity|]. unfold runs in *. cbn [flat_map app runs_decode].
  replace (k =? 0)%N with false by (symmetry; apply N.eqb_neq; lia). replace (250 <=? k)%N with false by (symmetry; apply N.leb_gt; lia).
  rewrite IH, app_assoc. reflexivity.
Qed.
Lemma repeats_length : forall k l, length (flat_map (fun b : N => repeat b k) l) = k * length l.
Proof. intros k l. induction l as [|b l IH]; [cbn; lia|]. cbn [flat_map length]. rewrite app_length, repeat_length, IH. lia. Qed.
Definition repeats (k : N) (l : list N) : list N := flat_map (fun b => repeat b (N.to_nat k)) l.
(** runs of [k] equal bytes with damage behind them: where the theorems about damage apply *)
Lemma damaged_runs : forall k l, (0 < k < 250)%N ->
  let data := runs k l ++ [255%N] in let p := length (runs k l) in
  p < length data /\ runs_decode (firstn p data) = (repeats k l, More) /\ runs_decode (firstn (p + 1) data) = (repeats k l, Damaged) /\
  runs_decode data = (repeats k l, Damaged) /\ forall n, n <= length l -> runs_decode (firstn (n + n) data) = (repeats k (firstn n l), More).
Proof.
  intros k l Hk data p. unfold data, p. assert (E : runs_decode (runs k l ++ [255%N]) = (repeats k l, Damaged)) by (rewrite decode_runs by exact Hk; cbn [runs_decode fst snd]; change (255 =? 0)%N with false; change (250 <=? 255)%N with true; cbn [fst snd]; rewrite app_nil_r; reflexivity).
  assert (E2 : forall l', runs_decode (runs k l') = (repeats k l', More)) by (intros l'; rewrite <- (app_nil_r (runs k l')), decode_runs by exact Hk; cbn [runs_decode fst snd]; rewrite app_nil_r; reflexivity).
  split; [rewrite app_length; cbn [length]; lia|]. split; [rewrite firstn_app, Nat.sub_diag, firstn_all; cbn [firstn]; rewrite app_nil_r; apply E2|].
  split; [rewrite firstn_all2 by (rewrite app_length; cbn [length]; lia); exact E|]. split; [exact E|].
  intros n Hn. rewrite firstn_app. replace (n + n - length (runs k l)) with 0 by (rewrite runs_length; lia). cbn [firstn]. rewrite app_nil_r, firstn_runs. apply E2.
Qed.
Definition sevens (n : nat) : list N := repeat 7%N n.
Definition unpack_runs (data : bytes) (fuel : nat) : unpacked := zlib_inflate _ (plain_inflate runs_decode) ([], []) fuel data.
Lemma sevens_case : forall k n, (0 < k < 250)%N -> n <= 3000 -> 2048 <= n ->
  let data := runs k (sevens n) ++ [255%N] in let p := 2 * n in let found := fst (runs_decode (firstn (p / 4096 * 4096) data)) in
  p < length data /\ p / 4096 * 4096 = 4096 /\ runs_decode (firstn p data) = (repeats k (sevens n), More) /\ snd (runs_decode (firstn (p + 1) data)) = Damaged /\
  length (fst (runs_decode (firstn (p + 1) data))) < length (fst (runs_decode (firstn p data))) + 4096 /\
  length found = N.to_nat k * 2048 /\ length (fst (runs_decode data)) = N.to_nat k * n /\ length data = 2 * n + 1.
Proof.
  intros k n Hk Hn Hn2 data p found. destruct (damaged_runs k (sevens n) Hk) as (D1 & D2 & D3 & D4 & D5). fold data in D1, D2, D3, D4, D5.
  assert (El : length (sevens n) = n) by apply repeat_length. rewrite runs_length, El in *. fold p in D1, D2, D3.
  assert (Ep : p / 4096 * 4096 = 4096). { assert (p / 4096 = 1) as -> by (symmetry; apply (Nat.div_unique p 4096 1 (p - 4096)); unfold p; lia). reflexivity. }
  assert (Ef : length found = N.to_nat k * 2048).
  { unfold found. rewrite Ep. change 4096 with (2048 + 2048). rewrite D5 by lia. cbn [fst]. unfold repeats. rewrite repeats_length, firstn_length, El, Nat.min_l by lia. reflexivity. }
  split; [exact D1|]. split; [exact Ep|]. split; [exact D2|]. split; [rewrite D3; reflexivity|]. split; [rewrite D2, D3; cbn [fst]; lia|]. split; [exact Ef|].
  split; [rewrite D4; cbn [fst]; unfold repeats; rewrite repeats_length, El; reflexivity|]. unfold data. rewrite app_length, runs_length, El. reflexivity.
Qed.
Example C80_case :
  is_format runs_decode /\ inflate_keeps runs_decode _ (plain_inflate runs_decode) (plain_stands runs_decode) ([], []) /\
  deflate_keeps runs_decode _ plain_deflate deflate_stands ([], 0) (fun n => 2 * n + 1) /\
  (* whole data with something behind it, data that is cut off, data with the damage at its beginning *)
  unpack_runs ([3; 65; 2; 66; 0; 9; 9]%N) 9 = Unpacked [65; 65; 65; 66; 66]%N /\
  unpack_runs ([3; 65; 2]%N) 9 = Unpacked [65; 65; 65]%N /\
  unpack_runs ([3; 65; 2; 66; 255; 9; 9]%N) 9 = DataError 0 /\
  (* damage in the second block, everything in front of it comes back *)
  results_in (unpack_runs (runs 1 (sevens 3000) ++ [255%N])) (Unpacked (repeats 1 (sevens 3000))) /\
  (* only the 6144 bytes of the first block come back, of 9000 *)
  (exists got, results_in (unpack_runs (runs 3 (sevens 3000) ++ [255%N])) (Unpacked got) /\ length got = 3 * 2048 /\
     snd (runs_decode (firstn 6000 (runs 3 (sevens 3000) ++ [255%N]))) = More /\
     length (fst (runs_decode (firstn 6000 (runs 3 (sevens 3000) ++ [255%N])))) = 9000).
Proof.
  pose proof runs_format as F. pose proof (plain_keeps _ F) as K.
  split; [exact F|]. split; [exact K|]. split; [exact runs_deflate|]. split; [vm_compute; reflexivity|]. split; [vm_compute; reflexivity|]. split; [vm_compute; reflexivity|]. split.
  - destruct (sevens_case 1 3000) as (S1 & S2 & S3 & S4 & S5 & S6 & S7 & S8); [lia|lia|lia|].
    pose proof (C80_recovers_partial _ F _ _ _ _ K _ _ S1) as R. rewrite S3 in R. specialize (R eq_refl S4). rewrite S3 in S5. specialize (R S5). cbv zeta in R. rewrite S6, S2 in R. apply R.
    + change (N.to_nat 1) with 1. lia.
    + rewrite S7. change (N.to_nat 1) with 1. lia.
  - destruct (sevens_case 3 3000) as (S1 & S2 & S3 & S4 & S5 & S6 & S7 & S8); [lia|lia|lia|].
    eexists. split; [|split; [|split]].
    + apply (C80_lost_refuted _ F _ _ _ _ K _ _ S1).
      * rewrite S3. reflexivity.
      * exact S4.
      * exact S5.
      * rewrite S6, S2. change (N.to_nat 3) with 3. lia.
      * rewrite S6, S8. change (N.to_nat 3) with 3. lia.
      * rewrite S6, S7. change (N.to_nat 3) with 3. lia.
    + rewrite S6. reflexivity.
    + change 6000 with (2 * 3000). rewrite S3. reflexivity.
    + change 6000 with (2 * 3000). rewrite S3. cbn [fst]. unfold repeats. rewrite repeats_length. unfold sevens. rewrite repeat_length. reflexivity.
Qed.

Print Assumptions C80_decompresses.
Print Assumptions C80_round_trip.
Print Assumptions C80_nothing_made_up.
Print Assumptions C80_damaged.
Print Assumptions C80_recovers_partial.
Print Assumptions C80_cut_off_refuted.
Print Assumptions C80_small_refuted.
Print Assumptions C80_lost_refuted.
Print Assumptions C80_same_length_refuted.

(** C81: pixels of images. *)
From Coq Require Import List NArith ZArith Arith Bool Lia String.
From Coq Require Import List.
From Verif.Model Require Import Base SMap Object Arith Containers Encryption Images.
From Verif.Spec Require Import Images.
From Verif.Proof Require Import Tac Images.
Import ListNotations.
Local Open Scope nat_scope.

(** *** DCT *)
(** The decompressor is given the bytes of the data one after the other ... *)
Theorem C81_jpeg_reads_partial : forall A (jpeg : reader A) data,
  match feed jpeg data with
  | Finished a => serve data 0 jpeg = Ok a
  | Refused => serve data 0 jpeg = Throw EGeneral
  | Starved => True
  end.
Proof. intros A jpeg data. pose proof (serve_feed A jpeg data 0 (N.le_0_l _)) as E. cbn [N.to_nat skipn] in E. rewrite E. destruct (feed jpeg data); cbn [of_meal]; auto. Qed.
(** ... finding: but when it wants one more than there are, it is told that there is one and reads behind the data. *)
Theorem C81_jpeg_cut_off_refuted : forall jpeg attributes data, feed jpeg data = Starved -> dct_decode jpeg attributes data (N.of_nat (List.length data)) = Undef.
Proof.
  intros jpeg attributes data E. unfold dct_decode. rewrite Nat2N.id, firstn_all, (serve_feed _ jpeg data 0 (N.le_0_l _)). cbn [N.to_nat skipn]. rewrite E. reflexivity.
Qed.

(** A picture with one, three or four components: its lines one after the other, and its size in the attribute. *)
Theorem C81_jpeg_decode_partial : forall jpeg attributes data p, feed jpeg data = Finished p -> regular p ->
  (p_components p = 1 \/ p_components p = 3 \/ p_components p = 4)%N -> at_find image_metadata attributes = None ->
  dct_decode jpeg attributes data (N.of_nat (List.length data)) =
    Ok (concat (p_lines p), (image_metadata, {| i_width := Z.of_N (p_width p); i_height := Z.of_N (p_height p); i_components := Z.of_N (p_components p); i_color := p_color p |}) :: attributes).
Proof.
  intros jpeg attributes data p E (Hr1 & Hr2 & Hw & Hh & Hc & Hs) Hk Ha. unfold dct_decode. rewrite Nat2N.id, firstn_all, (serve_feed _ jpeg data 0 (N.le_0_l _)). cbn [N.to_nat skipn]. rewrite E. cbn [of_meal rbind].
  destruct (multiply_u32 _ _ Hs) as [Em|Em]; [|exfalso; change (2 ^ 31)%N with 2147483648%N in *; change (2 ^ 32)%N with 4294967296%N in Em; lia]. rewrite Em. cbn [rbind].
  rewrite copy_lines_all; [|exact Hk|exact Hr2|rewrite repeat_length; lia]. change (2 ^ 31)%N with 2147483648%N in *. rewrite !wrap_small by (change (2 ^ 31)%Z with 2147483648%Z; lia).
  unfold attr_add, attr_contains. rewrite Ha. reflexivity.
Qed.
(** Finding: the pixels of a picture with another number of components are all zero, whatever the picture. *)
Theorem C81_jpeg_components_refuted : forall jpeg attributes data p, feed jpeg data = Finished p -> regular p ->
  (p_components p <> 1 /\ p_components p <> 3 /\ p_components p <> 4)%N -> at_find image_metadata attributes = None ->
  exists a, dct_decode jpeg attributes data (N.of_nat (List.length data)) = Ok (concat (repeat (repeat 0%N (N.to_nat (p_width p * p_components p))) (N.to_nat (p_height p))), a).
Proof.
  intros jpeg attributes data p E (Hr1 & Hr2 & Hw & Hh & Hc & Hs) Hk Ha. unfold dct_decode. rewrite Nat2N.id, firstn_all, (serve_feed _ jpeg data 0 (N.le_0_l _)). cbn [N.to_nat skipn]. rewrite E. cbn [of_meal rbind].
  destruct (multiply_u32 _ _ Hs) as [Em|Em]; [|exfalso; change (2 ^ 31)%N with 2147483648%N in *; change (2 ^ 32)%N with 4294967296%N in Em; lia]. rewrite Em. cbn [rbind].
  rewrite copy_lines_none by exact Hk. rewrite Hr1. unfold attr_add, attr_contains. rewrite Ha. cbn [negb andb rbind]. eexists. replace (Z.to_nat (Z.of_N (p_width p * p_components p))) with (N.to_nat (p_width p * p_components p)) by lia. reflexivity.
Qed.
(** Finding: an object that has an image attribute already, because it was decoded before or because the program put it there, cannot be
    decoded. *)
Theorem C81_jpeg_attribute_refuted : forall jpeg attributes data p m, feed jpeg data = Finished p -> regular p -> at_find image_metadata attributes = Some m ->
  dct_decode jpeg attributes data (N.of_nat (List.length data)) = Throw EDuplicateKey.
Proof.
  intros jpeg attributes data p m E (Hr1 & Hr2 & Hw & Hh & Hc & Hs) Ha. unfold dct_decode. rewrite Nat2N.id, firstn_all, (serve_feed _ jpeg data 0 (N.le_0_l _)). cbn [N.to_nat skipn]. rewrite E. cbn [of_meal rbind].
  destruct (multiply_u32 _ _ Hs) as [Em|Em]; [|exfalso; change (2 ^ 31)%N with 2147483648%N in *; change (2 ^ 32)%N with 4294967296%N in Em; lia]. rewrite Em. cbn [rbind].
  unfold attr_add, attr_contains. rewrite Ha. reflexivity.
Qed.

(** A picture whose colour space is an array cannot be compressed, also when the attribute that decoding leaves tells all that is needed. *)
Theorem C81_jpeg_encode_colour_refuted : forall jpeg start (write_line : jpeg -> bytes -> jpeg * bytes) finish params attributes data length l,
  sm_find (str "ColorSpace") params = Some (OArr l) -> forall x, dct_encode jpeg start write_line finish params attributes data length <> Ok x.
Proof.
  intros jpeg start write_line finish params attributes data length l E x. unfold dct_encode, image_params, find_color. rewrite E.
  destruct (optional _ (find_integer (str "Width") params)); cbn [rbind]; [|discriminate..]. destruct (optional _ (find_integer (str "Height") params)); cbn [rbind]; discriminate.
Qed.
Example C81_jpeg_encode_colour_case : sm_find (str "ColorSpace") [(str "ColorSpace", OArr [OName (str "ICCBased"); ORef 7 0])] = Some (OArr [OName (str "ICCBased"); ORef 7 0]).
Proof. reflexivity. Qed.

(** Compressing: the compressor is set up for the picture that decoding noted, or else for the one the dictionary describes; it gets the
    lines of the picture, and all it gives is in the result, whatever its size; what the data has behind the last line is not looked at. *)
Theorem C81_jpeg_encode : forall jpeg start (write_line : jpeg -> bytes -> jpeg * bytes) finish params attributes w h n j out lines rest,
  described params (at_find image_metadata attributes) w h n -> (w < 2 ^ 32)%N -> (h < 2 ^ 32)%N -> start w h n = Some (j, out) ->
  List.length lines = N.to_nat h -> Forall (fun l => List.length l = N.to_nat (w * n)) lines ->
  let data := concat lines ++ rest in
  dct_encode jpeg start write_line finish params attributes data (Z.of_nat (List.length data)) = Ok (out ++ bytes_of_lines write_line finish j lines).
Proof.
  intros jpeg start write_line finish params attributes w h n j out lines rest Hd Hw Hh Es El Hf data.
  destruct (described_params params attributes w h n Hd) as (c & Ep & Ec).
  exact (encode_params jpeg start write_line finish params attributes w h c n j out lines rest Ep Hw Hh Ec Es El Hf).
Qed.
(** Data that has fewer bytes than the picture is refused. *)
Theorem C81_jpeg_encode_short : forall jpeg (write_line : jpeg -> bytes -> jpeg * bytes) lines row_size data left j d,
  (N.of_nat (List.length data) < row_size * N.of_nat lines)%N -> compress_lines jpeg write_line lines row_size data left j d = Throw EGeneral.
Proof. intros. apply compress_lines_short. assumption. Qed.

(** *** JPX *)
(** A picture whose components all have its size and eight bits, with fewer than 2^32 samples: the samples side by side. *)
Theorem C81_jpx_decode_partial : forall m attributes, m_color m <> CUndefined -> (x1 m < 2 ^ 31)%N -> (y1 m < 2 ^ 31)%N -> (N.of_nat (List.length (comps m)) < 2 ^ 31)%N ->
  (image_samples m < 2 ^ 32)%N -> Forall (fun c => List.length (c_data c) = N.to_nat (image_points m) /\ Forall eight_bits (c_data c)) (comps m) ->
  at_find image_metadata attributes = None ->
  exists out, jpx_samples m attributes =
    Ok (out, (image_metadata, {| i_width := Z.of_N (x1 m); i_height := Z.of_N (y1 m); i_components := Z.of_nat (List.length (comps m)); i_color := m_color m |}) :: attributes) /\ interleaved m out.
Proof.
  intros m attributes Hcol Hx Hy Hn Hs Hf Ha. change (2 ^ 31)%N with 2147483648%N in *.
  assert (H : forall y x k, y < N.to_nat (y1 m) -> x < N.to_nat (x1 m) -> k < List.length (comps m) -> exists v, sample m y x k = Some v /\ eight_bits v).
  { intros y x k H1 H2 H3. destruct (sample_index_bound m y x k H1 H2 H3) as (_ & B). unfold sample. destruct (nth_error (comps m) k) as [c|] eqn:Ec; [|apply nth_error_None in Ec; lia].
    rewrite Forall_forall in Hf. destruct (Hf c (nth_error_In _ _ Ec)) as (L1 & L2). destruct (nth_error (c_data c) (y * N.to_nat (x1 m) + x)) as [v|] eqn:Ev; [|apply nth_error_None in Ev; lia].
    exists v. split; [reflexivity|]. rewrite Forall_forall in L2. apply L2. exact (nth_error_In _ _ Ev). }
  eexists. split; [|apply values_interleaved; exact H]. unfold jpx_samples. destruct (m_color m) eqn:Em; [contradiction|..];
  (change (u32 (u32 (x1 m * y1 m) * N.of_nat (List.length (comps m)))) with (result_size m); rewrite jpx_all by assumption; cbn [rbind]; unfold attr_add, attr_contains; rewrite Ha; cbn [negb andb rbind];
   rewrite !wrap_small by (change (2 ^ 31)%Z with 2147483648%Z; lia); rewrite nat_N_Z; reflexivity).
Qed.
(** No other picture with components is decoded. *)
Theorem C81_jpx_only : forall m attributes r, comps m <> [] -> jpx_samples m attributes = Ok r ->
  (image_samples m < 2 ^ 32)%N /\ forall y x k, y < N.to_nat (y1 m) -> x < N.to_nat (x1 m) -> k < List.length (comps m) -> exists v, sample m y x k = Some v /\ eight_bits v.
Proof.
  intros m attributes r Hc E. unfold jpx_samples in E. destruct (m_color m); [discriminate|..];
  (change (u32 (u32 (x1 m * y1 m) * N.of_nat (List.length (comps m)))) with (result_size m) in E; apply rbind_ok in E; destruct E as (out & E & _); apply jpx_only in E; destruct E as (H1 & [H2|H2]); [contradiction|split; assumption]).
Qed.
(** Finding: components that are smaller than the picture, because they are sampled more coarsely or because the picture does not begin
    at the origin, are read beyond their end ... *)
Theorem C81_jpx_subsampled_refuted : forall m attributes c, m_color m <> CUndefined -> In c (comps m) -> List.length (c_data c) < N.to_nat (image_points m) ->
  Forall (fun c => Forall eight_bits (c_data c)) (comps m) -> jpx_samples m attributes = Undef.
Proof.
  intros m attributes c Hcol Hin Hl Hf. unfold jpx_samples.
  assert (E : put_samples m (repeat 0%N (N.to_nat (result_size m))) = Undef).
  { destruct (put_samples_calm m (repeat 0%N (N.to_nat (result_size m))) Hf) as [E|(out & E & _)]; [exact E|exfalso]. apply jpx_only in E. destruct E as (H1 & [H2|H2]); [rewrite H2 in Hin; destruct Hin|].
    apply In_nth_error in Hin. destruct Hin as (k & Ek). unfold image_points in Hl. rewrite N2Nat.inj_mul in Hl. set (i := List.length (c_data c)) in *. assert (Hw : N.to_nat (x1 m) <> 0) by nia.
    destruct (H2 (i / N.to_nat (x1 m)) (i mod N.to_nat (x1 m)) k) as (v & Ev & _).
    - apply Nat.div_lt_upper_bound; assumption.
    - apply Nat.mod_upper_bound. exact Hw.
    - apply nth_error_Some. rewrite Ek. discriminate.
    - unfold sample in Ev. rewrite Ek, (Nat.mul_comm (i / _)), <- Nat.div_mod in Ev by exact Hw. assert (nth_error (c_data c) i = None) by (apply nth_error_None; reflexivity). congruence. }
  destruct (m_color m); [contradiction|..]; (change (u32 (u32 (x1 m * y1 m) * N.of_nat (List.length (comps m)))) with (result_size m); rewrite E; reflexivity).
Qed.
(** ... and the size of a picture with 2^32 samples or more is computed wrongly, so that the result is written beyond its end. *)
Theorem C81_jpx_large_refuted : forall m attributes, m_color m <> CUndefined -> comps m <> [] -> (2 ^ 32 <= image_samples m)%N ->
  Forall (fun c => Forall eight_bits (c_data c)) (comps m) -> jpx_samples m attributes = Undef.
Proof.
  intros m attributes Hcol Hc Hs Hf. unfold jpx_samples.
  assert (E : put_samples m (repeat 0%N (N.to_nat (result_size m))) = Undef).
  { destruct (put_samples_calm m (repeat 0%N (N.to_nat (result_size m))) Hf) as [E|(out & E & _)]; [exact E|exfalso]. apply jpx_only in E. destruct E as (H1 & _). lia. }
  destruct (m_color m); [contradiction|..]; (change (u32 (u32 (x1 m * y1 m) * N.of_nat (List.length (comps m)))) with (result_size m); rewrite E; reflexivity).
Qed.

(** openjpeg reads what it wants as long as it is there ... *)
Theorem C81_jpx_reads_partial : forall fuel size buffered stream want, (want <= N.of_nat (List.length (buffered ++ stream)))%N ->
  exists buffered' stream', opj_stream_read_data (S fuel) stream_read size buffered stream want = Some (firstn (N.to_nat want) (buffered ++ stream), buffered', stream') /\
    buffered' ++ stream' = skipn (N.to_nat want) (buffered ++ stream).
Proof.
  intros fuel size buffered stream want H. unfold opj_stream_read_data. rewrite app_length in H. unfold size_of. destruct (N.leb_spec want (N.of_nat (List.length buffered))) as [Hl|Hl].
  - eexists. eexists. split; [rewrite firstn_app; replace (N.to_nat want - List.length buffered) with 0 by lia; rewrite firstn_O, app_nil_r; reflexivity|].
    rewrite skipn_app. replace (N.to_nat want - List.length buffered) with 0 by lia. reflexivity.
  - destruct (opj_read_gets fuel size stream (want - N.of_nat (List.length buffered)) buffered) as (b & s & E & Es); [lia|]. exists b, s.
    replace (N.to_nat (want - N.of_nat (List.length buffered))) with (N.to_nat want - List.length buffered) in * by lia.
    rewrite E, firstn_app, skipn_app, (firstn_all2 buffered), (skipn_all2 buffered) by lia. split; [reflexivity|exact Es].
Qed.
(** ... finding: and otherwise never ends, because the end of the data is reported as a read of no bytes instead of a failed one. *)
Theorem C81_jpx_cut_off_refuted : forall fuel size buffered stream want, (N.of_nat (List.length (buffered ++ stream)) < want)%N ->
  opj_stream_read_data fuel stream_read size buffered stream want = None.
Proof.
  intros fuel size buffered stream want H. unfold opj_stream_read_data. rewrite app_length in H. unfold size_of. destruct (N.leb_spec want (N.of_nat (List.length buffered))) as [Hl|Hl]; [lia|]. apply opj_read_hangs. lia.
Qed.

(** *** Concrete pictures *)
(** a toy format: a skipped byte, width, height and components, then the samples *)
Fixpoint take_bytes {A} (n : nat) (k : bytes -> reader A) : reader A := match n with O => k [] | S n' => RByte (fun b => take_bytes n' (fun l => k (b :: l))) end.
Fixpoint cut (n : nat) (size : nat) (l : bytes) : list bytes := match n with O => [] | S n' => firstn size l :: cut n' size (skipn size l) end.
Definition toy : reader picture :=
  RSkip 1 (RByte (fun w => RByte (fun h => RByte (fun c => take_bytes (N.to_nat (w * h * c)) (fun l =>
    RDone {| p_width := w; p_height := h; p_components := c; p_color := CRgb; p_lines := cut (N.to_nat h) (N.to_nat (w * c)) l |}))))).
Definition toy_data : bytes := [99; 2; 2; 3; 1; 2; 3; 4; 5; 6; 7; 8; 9; 10; 11; 12]%N.
Definition toy_start (w h c : N) : option (N * bytes) := Some (0%N, [w; h; c]).
Definition toy_line (j : N) (l : bytes) : N * bytes := (j + 1, l)%N.
Definition toy_finish (j : N) : bytes := [j].
Definition toy_params : dict := [(str "ColorSpace", OName (str "DeviceRGB")); (str "Height", OInt 2); (str "Width", OInt 2)].
Definition toy_image : image := {| x1 := 2; y1 := 2; m_color := CRgb; comps := [{| c_w := 2; c_h := 2; c_data := [1; 2; 3; 4] |}; {| c_w := 2; c_h := 2; c_data := [11; 12; 13; 14] |}; {| c_w := 2; c_h := 2; c_data := [21; 22; 23; 24] |}]%Z |}.
Definition coarse_image : image := {| x1 := 2; y1 := 2; m_color := CRgb; comps := [{| c_w := 2; c_h := 2; c_data := [1; 2; 3; 4] |}; {| c_w := 1; c_h := 1; c_data := [11] |}; {| c_w := 1; c_h := 1; c_data := [21] |}]%Z |}.
Definition large_image : image := {| x1 := 65536; y1 := 65536; m_color := CGray; comps := [{| c_w := 65536; c_h := 65536; c_data := [1; 2; 3]%Z |}] |}.
Example C81_case :
  (exists p, feed toy toy_data = Finished p /\ regular p /\ p_components p = 3%N) /\
  (exists a, dct_decode toy [] toy_data 16 = Ok ([1; 2; 3; 4; 5; 6; 7; 8; 9; 10; 11; 12]%N, a)) /\
  feed toy (firstn 15 toy_data) = Starved /\ dct_decode toy [] (firstn 15 toy_data) 15 = Undef /\
  (exists a, dct_decode toy [] [99; 1; 1; 2; 7; 8]%N 6 = Ok ([0; 0]%N, a)) /\
  described toy_params None 2 2 3 /\ described toy_params (Some {| i_width := 4; i_height := 1; i_components := 4; i_color := CCmyk |}) 4 1 4 /\
  dct_encode N toy_start toy_line toy_finish toy_params [] [1; 2; 3; 4; 5; 6; 7; 8; 9; 10; 11; 12; 13]%N 13 = Ok [2; 2; 3; 1; 2; 3; 4; 5; 6; 7; 8; 9; 10; 11; 12; 2]%N /\
  dct_encode N toy_start toy_line toy_finish toy_params [] [1; 2; 3; 4; 5; 6; 7; 8; 9; 10; 11]%N 11 = Throw EGeneral /\
  (exists a, jpx_samples toy_image [] = Ok ([1; 11; 21; 2; 12; 22; 3; 13; 23; 4; 14; 24]%N, a)) /\
  jpx_samples coarse_image [] = Undef /\ (2 ^ 32 <= image_samples large_image)%N /\
  opj_stream_read_data 99 stream_read 5 [] [1; 2; 3; 4; 5]%N 3 = Some ([1; 2; 3], [4; 5], [])%N /\
  opj_stream_read_data 99 stream_read 5 [4; 5]%N [] 3 = None.
Proof.
  split; [eexists; split; [vm_compute; reflexivity|split; [unfold regular; cbn; repeat split; try lia; repeat constructor|reflexivity]]|].
  split; [eexists; vm_compute; reflexivity|]. split; [vm_compute; reflexivity|]. split; [vm_compute; reflexivity|]. split; [eexists; vm_compute; reflexivity|].
  split; [apply (by_dictionary _ _ _ (str "DeviceRGB")); constructor|].
  split; [apply by_attribute; [right; eexists; reflexivity..|reflexivity|reflexivity|constructor]|].
  split; [vm_compute; reflexivity|]. split; [vm_compute; reflexivity|].
  split; [eexists; vm_compute; reflexivity|]. split; [vm_compute; reflexivity|]. split; [vm_compute; discriminate|]. split; vm_compute; reflexivity.
Qed.

Print Assumptions C81_jpeg_reads_partial.
Print Assumptions C81_jpeg_cut_off_refuted.
Print Assumptions C81_jpeg_decode_partial.
Print Assumptions C81_jpeg_components_refuted.
Print Assumptions C81_jpeg_attribute_refuted.
Print Assumptions C81_jpeg_encode_colour_refuted.
Print Assumptions C81_jpeg_encode.
Print Assumptions C81_jpeg_encode_short.
Print Assumptions C81_jpx_decode_partial.
Print Assumptions C81_jpx_only.
Print Assumptions C81_jpx_subsampled_refuted.
Print Assumptions C81_jpx_large_refuted.
Print Assumptions C81_jpx_reads_partial.
Print Assumptions C81_jpx_cut_off_refuted.

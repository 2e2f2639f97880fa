(** Lemmas about Model/Encryption.v. *)
From Coq Require Import List NArith ZArith Bool Lia String.
From Coq Require Import List.
From Verif.Model Require Import Base SMap Object Arith Digest Encryption.
From Verif.Spec Require Import Encryption.
From Verif.Proof Require Import Tac.
Import ListNotations.
Local Open Scope N_scope.

Lemma le_bytes_length : forall c n, List.length (le_bytes c n) = c.
Proof. induction c; intros n; cbn; [reflexivity|]. now rewrite IHc. Qed.
Lemma md5_length : forall d, List.length (md5 d) = 16%nat.
Proof.
  intros d. unfold md5. destruct (md5_blocks _ _ _) as [[[a b] c] e]. now rewrite !app_length, !le_bytes_length.
Qed.
Lemma rc4_stream_length : forall c i j s, List.length (rc4_stream c i j s) = c.
Proof. induction c; intros; cbn [rc4_stream List.length]; [reflexivity|]. now rewrite IHc. Qed.
Lemma xor_bytes_length : forall a b, List.length b = List.length a -> List.length (xor_bytes a b) = List.length a.
Proof. intros a b H. unfold xor_bytes. rewrite map_length, combine_length, H. apply PeanoNat.Nat.min_id. Qed.
Lemma xor_bytes_twice : forall a b, List.length b = List.length a -> xor_bytes (xor_bytes a b) b = a.
Proof.
  induction a as [|x a IH]; intros [|y b] H; try discriminate; [reflexivity|]. cbn. f_equal.
  - rewrite N.lxor_assoc, N.lxor_nilpotent, N.lxor_0_r. reflexivity.
  - apply IH. now injection H.
Qed.
Lemma rc4_length : forall k d, List.length (rc4 k d) = List.length d.
Proof. intros k d. unfold rc4. apply xor_bytes_length. apply rc4_stream_length. Qed.
Lemma rc4_twice : forall k d, rc4 k (rc4 k d) = d.
Proof.
  intros k d. unfold rc4 at 1. rewrite rc4_length. unfold rc4. apply xor_bytes_twice. apply rc4_stream_length.
Qed.
#[global] Opaque md5 rc4.

Lemma wrap_small : forall t v, (0 < bits t)%N -> (0 <= v)%Z -> (v <= tmax t)%Z -> wrap t v = v.
Proof.
  intros [s b] v Hb H0 H. unfold wrap, tmax in *. cbn [sgn Arith.bits] in *.
  assert (Hp : (0 < 2 ^ Z.of_N b)%Z) by (apply Z.pow_pos_nonneg; lia).
  assert (H2 : (2 ^ Z.of_N b = 2 * 2 ^ (Z.of_N b - 1))%Z).
  { rewrite <- Z.pow_succ_r by lia. f_equal. lia. }
  assert (Hp1 : (0 < 2 ^ (Z.of_N b - 1))%Z) by (apply Z.pow_pos_nonneg; lia).
  destruct s; cbn [andb].
  - rewrite Z.mod_small by lia. destruct (Z.leb_spec (2 ^ (Z.of_N b - 1)) v); [lia|reflexivity].
  - rewrite Z.mod_small by lia. reflexivity.
Qed.
Lemma to_int : forall n, (Z.of_N n < 2147483647)%Z -> safe_convert int32_t uint64_t (Z.of_N n) = Ok (Z.of_N n).
Proof.
  intros n H. unfold safe_convert, is_in_range. cbn [sgn int32_t uint64_t Bool.eqb].
  change (tmax int32_t) with 2147483647%Z. rewrite (proj2 (Z.gtb_lt _ _)) by lia.
  rewrite wrap_small; [reflexivity|reflexivity|lia|]. change (tmax int32_t) with 2147483647%Z. lia.
Qed.
Lemma to_size : forall z, (0 <= z <= 2147483647)%Z -> safe_convert uint64_t int32_t z = Ok z.
Proof.
  intros z H. unfold safe_convert, is_in_range. cbn [sgn int32_t uint64_t Bool.eqb].
  rewrite (proj2 (Z.ltb_ge _ _)) by lia. unfold is_in_range_same. cbn [ity_eqb sgn Arith.bits Bool.eqb andb N.eqb Pos.eqb].
  change (tmin uint64_t) with 0%Z. change (tmax uint64_t) with 18446744073709551615%Z.
  rewrite (proj2 (Z.leb_le 0 z)) by lia. rewrite (proj2 (Z.leb_le z _)) by lia. cbn [andb].
  rewrite wrap_small; [reflexivity|reflexivity|lia|]. change (tmax uint64_t) with 18446744073709551615%Z. lia.
Qed.
Lemma to_size64 : forall z, (0 <= z <= 2147483647)%Z -> safe_convert uint64_t int64_t z = Ok z.
Proof.
  intros z H. unfold safe_convert, is_in_range. cbn [sgn int64_t uint64_t Bool.eqb].
  rewrite (proj2 (Z.ltb_ge _ _)) by lia. unfold is_in_range_same. cbn [ity_eqb sgn Arith.bits Bool.eqb andb N.eqb Pos.eqb].
  change (if Pos.eqb 64 64 then true else _) with true. cbv iota.
  rewrite wrap_small; [reflexivity|reflexivity|lia|]. change (tmax uint64_t) with 18446744073709551615%Z. lia.
Qed.
Lemma to_int64 : forall z, (-2147483648 <= z <= 2147483647)%Z -> safe_convert int32_t int64_t z = Ok z.
Proof.
  intros z H. unfold safe_convert, is_in_range. cbn [sgn int64_t int32_t Bool.eqb].
  unfold is_in_range_same. change (ity_eqb _ _) with false. cbv iota.
  change (tmin _) with (-2147483648)%Z. change (tmax _) with 2147483647%Z.
  rewrite (proj2 (Z.leb_le _ z)) by lia. rewrite (proj2 (Z.leb_le z _)) by lia. cbn [andb]. f_equal.
  unfold wrap. cbn [sgn Arith.bits andb int32_t]. change (2 ^ Z.of_N 32)%Z with 4294967296%Z. change (2 ^ (Z.of_N 32 - 1))%Z with 2147483648%Z.
  destruct (Z.leb_spec 2147483648 (z mod 4294967296)) as [H1|H1]; cbv iota; Z.div_mod_to_equations; lia.
Qed.

Lemma size_of_nat : forall s, N.to_nat (size_of s) = List.length s.
Proof. intros s. unfold size_of. lia. Qed.

Lemma rc4_n_ok : forall key n data, 0 < n -> n <= size_of key -> (Z.of_N n < 2147483647)%Z -> (Z.of_N (size_of data) < 2147483647)%Z ->
  rc4_n key n data = Ok (rc4 (firstn (N.to_nat n) key) data).
Proof.
  intros key n data H0 H1 H2 H3. unfold rc4_n. rewrite (to_int n H2). cbn [rbind]. rewrite (proj2 (N.eqb_neq n 0)) by lia.
  rewrite (proj2 (N.ltb_ge (size_of key) n)) by lia. rewrite (to_int _ H3). reflexivity.
Qed.
Lemma compute_rc4_ok : forall key data, (0 < List.length key)%nat -> (List.length key <= 16)%nat -> (Z.of_N (size_of data) < 2147483647)%Z ->
  compute_rc4 key data = Ok (rc4 key data).
Proof.
  intros key data H0 H1 H2. unfold compute_rc4. rewrite rc4_n_ok; try (unfold size_of in *; lia).
  rewrite size_of_nat, firstn_all. reflexivity.
Qed.

Definition passes (key : bytes) (cs : list N) (data : bytes) : bytes := fold_left (fun d i => rc4 (xor_key key i) d) cs data.
Lemma xor_key_length : forall k i, List.length (xor_key k i) = List.length k.
Proof. intros. apply map_length. Qed.
Lemma xor_key_0 : forall k, xor_key k 0 = k.
Proof. intros k. unfold xor_key. rewrite <- (map_id k) at 2. apply map_ext. intros a. apply N.lxor_0_r. Qed.
Lemma passes_length : forall key cs data, List.length (passes key cs data) = List.length data.
Proof. intros key. induction cs as [|i cs IH]; intros data; cbn; [reflexivity|]. unfold passes in IH. rewrite IH. apply rc4_length. Qed.
Lemma rc4_passes_ok : forall key cs data, List.length key = 16%nat -> (Z.of_N (size_of data) < 2147483647)%Z ->
  rc4_passes key cs data = Ok (passes key cs data).
Proof.
  intros key cs. induction cs as [|i cs IH]; intros data Hk Hd; cbn [rc4_passes passes fold_left]; [reflexivity|].
  rewrite compute_rc4_ok; [|rewrite xor_key_length; lia..|exact Hd]. cbn [rbind]. apply IH; [exact Hk|]. unfold size_of in *. now rewrite rc4_length.
Qed.
Lemma passes_app : forall key a b data, passes key (a ++ b) data = passes key b (passes key a data).
Proof. intros. unfold passes. apply fold_left_app. Qed.
Lemma passes_undone : forall key cs data, passes key (rev cs) (passes key cs data) = data.
Proof.
  intros key. induction cs as [|i cs IH]; intros data; [reflexivity|]. cbn [rev]. rewrite passes_app.
  change (passes key (i :: cs) data) with (passes key cs (rc4 (xor_key key i) data)). rewrite IH. cbn. apply rc4_twice.
Qed.

Lemma iterate_length : forall (f : bytes -> bytes) m n d, (forall d, List.length d = m -> List.length (f d) = m) ->
  List.length d = m -> List.length (iterate n f d) = m.
Proof. intros f m. induction n as [|n IH]; intros d Hf Hd; cbn; [exact Hd|]. apply IH; auto. Qed.
Lemma iterate_ext : forall (f g : bytes -> bytes) m n d, (forall d, List.length d = m -> f d = g d) ->
  (forall d, List.length d = m -> List.length (f d) = m) -> List.length d = m -> iterate n f d = iterate n g d.
Proof.
  intros f g m. induction n as [|n IH]; intros d He Hf Hd; cbn; [reflexivity|]. rewrite <- (He d Hd). apply IH; auto.
Qed.
Lemma hash_prefix_length : forall n d, (n <= 16)%nat -> List.length d = 16%nat -> List.length (hash_prefix n d) = 16%nat.
Proof.
  intros n d Hn Hd. unfold hash_prefix. rewrite app_length, firstn_length, skipn_length, md5_length. lia.
Qed.
Lemma hash_prefix_16 : forall d, List.length d = 16%nat -> hash_prefix 16 d = md5 d.
Proof.
  intros d Hd. unfold hash_prefix. rewrite (firstn_all2 d) by lia. rewrite firstn_all2 by (rewrite md5_length; lia).
  rewrite skipn_all2 by lia. apply app_nil_r.
Qed.

Lemma pad_ok : forall p, (List.length p <= 32)%nat -> pad_password p = Ok (padded_password p) /\ List.length (padded_password p) = 32%nat.
Proof.
  intros p H. unfold pad_password, padded_password. rewrite (proj2 (N.leb_le _ _)) by (unfold size_of; lia). split.
  - rewrite firstn_app. rewrite (firstn_all2 p) by lia. reflexivity.
  - rewrite firstn_length, app_length. cbn [List.length standard_padding]. lia.
Qed.
Lemma pad_long : forall p, (32 < List.length p)%nat -> pad_password p = Undef.
Proof. intros p H. unfold pad_password. rewrite (proj2 (N.leb_gt _ _)) by (unfold size_of; lia). reflexivity. Qed.

Lemma equal_first_same : forall n a b, (n <= List.length a)%nat -> firstn n a = firstn n b -> (n <= List.length b)%nat -> equal_first n a b = Ok true.
Proof.
  induction n as [|n IH]; intros a b H E H'; cbn [equal_first]; [reflexivity|].
  destruct a as [|x a]; [cbn in H; lia|]. destruct b as [|y b]; [cbn in H'; lia|]. cbn in E, H, H'. injection E as -> E.
  rewrite N.eqb_refl. apply IH; [lia|exact E|lia].
Qed.
Lemma equal_first_total : forall n a b, (n <= List.length a)%nat -> (n <= List.length b)%nat -> exists r, equal_first n a b = Ok r.
Proof.
  induction n as [|n IH]; intros a b H H'; cbn [equal_first]; [eauto|].
  destruct a as [|x a]; [cbn in H; lia|]. destruct b as [|y b]; [cbn in H'; lia|]. cbn in H, H'.
  destruct (x =? y); [apply IH; lia|eauto].
Qed.

#[global] Opaque iterate.
Lemma firstn_len : forall (a b : bytes) n, List.length a = n -> firstn n (a ++ b) = a.
Proof. intros a b n <-. rewrite firstn_app, PeanoNat.Nat.sub_diag. cbn [firstn]. rewrite app_nil_r. apply firstn_all. Qed.
(** number of bytes of a key length *)
Definition kbytes (bits : Z) : nat := Nat.min (Z.to_nat (Z.quot bits 8)) 16.
Lemma quot_range : forall bits, (0 <= bits <= 2147483647)%Z -> (0 <= Z.quot bits 8 <= 2147483647)%Z.
Proof. intros bits H. rewrite Z.quot_div_nonneg by lia. Z.div_mod_to_equations; lia. Qed.
Lemma digest_part_ok : forall bits d, (0 <= bits <= 2147483647)%Z -> List.length d = 16%nat -> digest_part bits d = Ok (kbytes bits).
Proof.
  intros bits d H Hd. unfold digest_part, length_bytes. pose proof (quot_range bits H) as Hq. rewrite to_size by exact Hq.
  cbn [rbind]. f_equal. unfold kbytes, size_of. rewrite Hd. remember (Z.quot bits 8) as q. lia.
Qed.

(** the data that is compared, and the digest that the file key is part of *)
Definition digest_of (bits revision : Z) (input id o : bytes) (perm : Z) : bytes :=
  let d := key_digest input id o perm in
  if (3 <=? revision)%Z then iterate 50 (hash_prefix (kbytes bits)) d else d.
Definition compare_of (bits revision : Z) (input id o : bytes) (perm : Z) : bytes :=
  let d := digest_of bits revision input id o perm in
  if (3 <=? revision)%Z then passes d (nrange 0 20) (md5 (pdf_pad ++ id)) else rc4 (firstn 5 d) pdf_pad.

Lemma digest_of_length : forall bits r input id o perm, List.length (digest_of bits r input id o perm) = 16%nat.
Proof.
  intros. unfold digest_of. destruct (3 <=? r)%Z; [|apply md5_length]. apply iterate_length; [|apply md5_length].
  intros d. apply hash_prefix_length. unfold kbytes. lia.
Qed.
Lemma passes_0 : forall key data, passes key (nrange 0 20) data = passes key (nrange 1 19) (rc4 key data).
Proof. intros. change (nrange 0 20) with (0 :: nrange 1 19). unfold passes at 1. cbn [fold_left]. now rewrite xor_key_0. Qed.

Lemma compare_v3_ok : forall bits input id o perm random, (0 <= bits <= 2147483647)%Z ->
  compare_data_v3 (key_digest input id o perm) id bits random =
    Ok (digest_of bits 3 input id o perm, compare_of bits 3 input id o perm ++ random).
Proof.
  intros bits input id o perm random H. unfold compare_data_v3. rewrite digest_part_ok; [|exact H|apply md5_length]. cbn [rbind].
  assert (Hx : iterate 50 (hash_prefix (kbytes bits)) (key_digest input id o perm) = digest_of bits 3 input id o perm).
  { unfold digest_of. cbv zeta. change (3 <=? 3)%Z with true. cbv iota. reflexivity. }
  rewrite Hx. clear Hx.
  pose proof (digest_of_length bits 3 input id o perm) as Hl.
  rewrite compute_rc4_ok; [|lia|lia|unfold size_of; rewrite md5_length; lia]. cbn [rbind].
  rewrite rc4_passes_ok; [|exact Hl|unfold size_of; rewrite rc4_length, md5_length; lia]. cbn [rbind].
  unfold compare_of. change (3 <=? 3)%Z with true. cbv iota. rewrite passes_0. reflexivity.
Qed.
Lemma compare_v2_ok : forall bits input id o perm, rc4_n (key_digest input id o perm) 5 pdf_pad = Ok (compare_of bits 2 input id o perm).
Proof.
  intros. unfold compare_of, digest_of. change (3 <=? 2)%Z with false. cbv iota.
  rewrite rc4_n_ok; [reflexivity|lia| |lia|cbn; lia]. unfold size_of, key_digest. rewrite md5_length. lia.
Qed.
Lemma compare_of_length : forall bits r input id o perm, List.length (compare_of bits r input id o perm) = if (3 <=? r)%Z then 16%nat else 32%nat.
Proof.
  intros. unfold compare_of. destruct (3 <=? r)%Z; [rewrite passes_length; apply md5_length|rewrite rc4_length; reflexivity].
Qed.

(** revision 2 or 3, as AddEncryption chooses it *)
Definition rev_of (bits : Z) : Z := if (40 <? bits)%Z then 3%Z else 2%Z.

Lemma check_key_ok : forall bits input id o u perm random, (0 <= bits <= 2147483647)%Z ->
  (List.length u >= if (3 <=? rev_of bits)%Z then 16 else 32)%nat ->
  exists b, check_key input id o u perm (rev_of bits) bits random =
    Ok (if b : bool then Some (firstn (kbytes bits) (digest_of bits (rev_of bits) input id o perm)) else None)
    /\ (firstn (if (3 <=? rev_of bits)%Z then 16 else 32) u = compare_of bits (rev_of bits) input id o perm -> b = true).
Proof.
  intros bits input id o u perm random H Hu. unfold check_key. rewrite digest_part_ok; [|exact H|apply md5_length]. cbn [rbind].
  pose proof (compare_of_length bits (rev_of bits) input id o perm) as Hl.
  unfold rev_of in *. destruct (40 <? bits)%Z eqn:E.
  - change (3 <=? 3)%Z with true in *. cbv iota in *. rewrite compare_v3_ok by exact H. cbn [rbind].
    destruct (equal_first_total 16 (compare_of bits 3 input id o perm ++ random) u) as (b & Hb); [rewrite app_length; lia|lia|].
    rewrite Hb. cbn [rbind]. exists b. split; [reflexivity|]. intros Hq.
    rewrite (equal_first_same 16) in Hb; [injection Hb as <-; reflexivity|rewrite app_length; lia| |lia].
    rewrite Hq. apply firstn_len. exact Hl.
  - change (3 <=? 2)%Z with false in *. cbv iota in *. rewrite (compare_v2_ok bits). cbn [rbind].
    destruct (equal_first_total 32 (compare_of bits 2 input id o perm) u) as (b & Hb); [lia|lia|].
    rewrite Hb. cbn [rbind]. exists b. split; [reflexivity|]. intros Hq.
    rewrite (equal_first_same 32) in Hb; [injection Hb as <-; reflexivity|lia| |lia].
    rewrite Hq. apply firstn_all2. lia.
Qed.

(** the owner entry *)
Definition owner_of (bits : Z) (owner user : bytes) : bytes :=
  let start := md5 (padded_password owner) in
  if (40 <? bits)%Z then
    let key := iterate 50 md5 start in
    passes key (nrange 1 19) (rc4 (firstn (Z.to_nat (Z.quot bits 8)) key) (padded_password user))
  else rc4 (firstn 5 start) (padded_password user).
Lemma iterate_md5_length : forall n d, List.length (iterate n md5 (md5 d)) = 16%nat.
Proof. intros. apply iterate_length; [intros; apply md5_length|apply md5_length]. Qed.
Lemma quot_small : forall bits, (40 < bits <= 135)%Z -> (5 <= Z.quot bits 8 <= 16)%Z.
Proof. intros bits H. rewrite Z.quot_div_nonneg by lia. Z.div_mod_to_equations; lia. Qed.
Lemma generate_owner_ok : forall owner user alg bits, (List.length owner <= 32)%nat -> (List.length user <= 32)%nat ->
  alg = ARC4 \/ alg = AAES -> (0 <= bits <= 135)%Z ->
  generate_owner owner user alg bits (rev_of bits) = Ok (owner_of bits owner user) /\ List.length (owner_of bits owner user) = 32%nat.
Proof.
  intros owner user alg bits Ho Hu Ha Hb. destruct (pad_ok owner Ho) as (Eo & Lo). destruct (pad_ok user Hu) as (Eu & Lu).
  pose proof (iterate_md5_length 50 (padded_password owner)) as Hl.
  assert (HE : generate_owner owner user alg bits (rev_of bits) = generate_owner owner user ARC4 bits (rev_of bits)) by (destruct Ha; subst; reflexivity).
  rewrite HE. unfold generate_owner. rewrite Eo, Eu. cbn [rbind]. unfold rev_of, owner_of. destruct (40 <? bits)%Z eqn:E.
  - change (3 <=? 3)%Z with true. cbv iota. apply Z.ltb_lt in E. pose proof (quot_small bits (conj E (proj2 Hb))) as Hq.
    rewrite to_size by lia. cbn [rbind]. rewrite rc4_n_ok; [|lia|unfold size_of; lia|lia|unfold size_of; lia]. cbn [rbind].
    rewrite rc4_passes_ok; [|exact Hl|unfold size_of; rewrite rc4_length; lia]. split; [|rewrite passes_length, rc4_length; exact Lu].
    do 3 f_equal. f_equal. remember (Z.quot bits 8) as q. lia.
  - change (3 <=? 2)%Z with false. cbv iota. rewrite to_size by lia. cbn [rbind].
    rewrite rc4_n_ok; [|reflexivity|unfold size_of; rewrite md5_length; cbn; lia|reflexivity|unfold size_of; lia].
    split; [reflexivity|rewrite rc4_length; exact Lu].
Qed.
Lemma kbytes_part : forall bits, (0 <= bits <= 135)%Z -> Nat.min (Z.to_nat (Z.quot bits 8)) 16 = kbytes bits.
Proof. reflexivity. Qed.

Definition user_of (bits : Z) (id user o : bytes) (perm : Z) (random : bytes) : bytes :=
  compare_of bits (rev_of bits) (padded_password user) id o perm ++ (if (40 <? bits)%Z then random else []).
Lemma generate_user_ok : forall id user o alg bits perm random, (List.length user <= 32)%nat ->
  alg = ARC4 \/ alg = AAES -> (0 <= bits <= 2147483647)%Z ->
  generate_user id user o alg bits perm (rev_of bits) random = Ok (user_of bits id user o perm random).
Proof.
  intros id user o alg bits perm random Hu Ha Hb. destruct (pad_ok user Hu) as (Eu & Lu).
  assert (HE : generate_user id user o alg bits perm (rev_of bits) random = generate_user id user o ARC4 bits perm (rev_of bits) random) by (destruct Ha; subst; reflexivity).
  rewrite HE. unfold generate_user. rewrite Eu. cbn [rbind]. unfold rev_of, user_of. unfold rev_of. destruct (40 <? bits)%Z.
  - change (3 <=? 3)%Z with true. cbv iota. rewrite compare_v3_ok by exact Hb. reflexivity.
  - change (3 <=? 2)%Z with false. cbv iota. rewrite (compare_v2_ok bits). now rewrite app_nil_r.
Qed.

(** the dictionary that AddEncryption makes *)
Definition dict_of (version bits revision : Z) (o u : bytes) (perm : Z) : dict :=
  fold_left (fun m kv => sm_insert (fst kv) (snd kv) m)
    [(str "Filter", OName (str "Standard")); (str "V", OInt version); (str "Length", OInt bits); (str "R", OInt revision);
     (str "O", OHex o); (str "U", OHex u); (str "P", OInt perm)] [].
Lemma dict_of_finds : forall version bits revision o u perm,
  let d := dict_of version bits revision o u perm in
  find_name (str "Filter") d = Ok (str "Standard") /\ find_string (str "U") d = Ok u /\ find_string (str "O") d = Ok o /\
  find_integer (str "P") d = Ok perm /\ find_integer (str "R") d = Ok revision /\ find_integer (str "V") d = Ok version /\
  find_length_bits d = Ok bits.
Proof. intros. repeat split; reflexivity. Qed.

Definition recovered_of (bits : Z) (padded o : bytes) : bytes :=
  if (40 <? bits)%Z then passes (iterate 50 (hash_prefix (kbytes bits)) (md5 padded)) (rev (nrange 0 20)) o
  else rc4 (firstn 5 (md5 padded)) o.
Lemma owner_recovered_ok : forall version bits o u perm padded, (0 <= bits <= 2147483647)%Z -> (Z.of_N (size_of o) < 2147483647)%Z ->
  owner_recovered padded (dict_of version bits (rev_of bits) o u perm) = Ok (recovered_of bits padded o).
Proof.
  intros version bits o u perm padded Hb Ho. unfold owner_recovered.
  destruct (dict_of_finds version bits (rev_of bits) o u perm) as (_ & Eu & Eo & Ep & Er & Ev & El). cbn zeta in *.
  rewrite Eu, Eo, Ep, Er, Ev, El. cbn [rbind]. unfold recovered_of, rev_of. destruct (40 <? bits)%Z.
  - change (3 <=? 3)%Z with true. cbv iota. pose proof (quot_range bits Hb) as Hq. rewrite to_size64 by exact Hq. cbn [rbind].
    replace (N.to_nat (N.min (Z.to_N (bits ÷ 8)) (size_of (md5 padded)))) with (kbytes bits).
    2: { unfold kbytes, size_of. rewrite md5_length. remember (Z.quot bits 8) as q. lia. }
    apply rc4_passes_ok; [|exact Ho]. apply iterate_length; [|apply md5_length]. intros d. apply hash_prefix_length. unfold kbytes. lia.
  - change (3 <=? 2)%Z with false. cbv iota. apply rc4_n_ok; [lia|unfold size_of; rewrite md5_length; lia|lia|exact Ho].
Qed.

(** the owner password gives the padded user password back *)
Lemma recovered_owner : forall bits owner user, (0 <= bits <= 40)%Z \/ (128 <= bits <= 135)%Z ->
  recovered_of bits (padded_password owner) (owner_of bits owner user) = padded_password user.
Proof.
  intros bits owner user Hb. unfold recovered_of, owner_of. destruct (40 <? bits)%Z eqn:E; [|apply rc4_twice].
  apply Z.ltb_lt in E. destruct Hb as [Hb|Hb]; [lia|].
  assert (Hq : Z.quot bits 8 = 16%Z) by (rewrite Z.quot_div_nonneg by lia; Z.div_mod_to_equations; lia).
  unfold kbytes. rewrite Hq. change (Nat.min (Z.to_nat 16) 16) with 16%nat. change (Z.to_nat 16) with 16%nat.
  rewrite firstn_all2 by (rewrite iterate_md5_length; lia). rewrite <- passes_0.
  rewrite (iterate_ext (hash_prefix 16) md5 16); [apply passes_undone|intros d; apply hash_prefix_16| |apply md5_length].
  intros d. apply hash_prefix_length. lia.
Qed.

Lemma set_password_eq : forall version bits o u perm password id random, (0 <= bits <= 2147483647)%Z -> (List.length password <= 32)%nat ->
  (Z.of_N (size_of o) < 2147483647)%Z -> (0 < List.length id)%nat ->
  set_password password id (dict_of version bits (rev_of bits) o u perm) random =
  do first <- check_key (recovered_of bits (padded_password password) o) id o u perm (rev_of bits) bits random;;
  match first with
  | Some key => Ok (Some key)
  | None => check_key (padded_password password) id o u perm (rev_of bits) bits random
  end.
Proof.
  intros version bits o u perm password id random Hb Hp Ho Hi. unfold set_password.
  destruct (dict_of_finds version bits (rev_of bits) o u perm) as (Ef & Eu & Eo & Ep & Er & Ev & El). cbn zeta in *.
  rewrite (proj2 (N.eqb_neq _ _)) by (unfold size_of; lia). rewrite Ef, Eu, Eo, Ep, Er, Ev, El.
  cbn [rbind]. change (negb (beq (str "Standard") (str "Standard"))) with false. cbv iota.
  rewrite (to_int64 (rev_of bits)) by (unfold rev_of; destruct (40 <? bits)%Z; lia). cbn [rbind].
  rewrite to_int64 by lia. cbn [rbind]. rewrite (proj1 (pad_ok password Hp)). cbn [rbind].
  rewrite owner_recovered_ok by assumption. reflexivity.
Qed.

Definition key_of (bits : Z) (input id o : bytes) (perm : Z) : bytes := firstn (kbytes bits) (digest_of bits (rev_of bits) input id o perm).

(** both parts of opening: with any password the outcome is a file key or a refusal; with the user password it is a key *)
Lemma user_of_first : forall bits id user o perm random, firstn (if (3 <=? rev_of bits)%Z then 16 else 32) (user_of bits id user o perm random) =
  compare_of bits (rev_of bits) (padded_password user) id o perm.
Proof.
  intros. unfold user_of. pose proof (compare_of_length bits (rev_of bits) (padded_password user) id o perm) as Hl.
  apply firstn_len. exact Hl.
Qed.
Lemma user_of_length : forall bits id user o perm random, (List.length (user_of bits id user o perm random) >= if (3 <=? rev_of bits)%Z then 16 else 32)%nat.
Proof.
  intros. unfold user_of. rewrite app_length, compare_of_length. lia.
Qed.

Lemma opened_user : forall version bits o perm user id random random', (0 <= bits <= 2147483647)%Z -> (List.length user <= 32)%nat ->
  (Z.of_N (size_of o) < 2147483647)%Z -> (0 < List.length id)%nat ->
  exists input, set_password user id (dict_of version bits (rev_of bits) o (user_of bits id user o perm random) perm) random' = Ok (Some (key_of bits input id o perm))
  /\ (input = padded_password user \/
      input <> padded_password user /\ check_key input id o (user_of bits id user o perm random) perm (rev_of bits) bits random' = Ok (Some (key_of bits input id o perm))).
Proof.
  intros version bits o perm user id random random' Hb Hu Ho Hi. rewrite set_password_eq by assumption.
  set (u := user_of bits id user o perm random). pose proof (user_of_length bits id user o perm random) as Hul. fold u in Hul.
  set (r := recovered_of bits (padded_password user) o).
  destruct (check_key_ok bits r id o u perm random' Hb Hul) as (b & Eb & _). rewrite Eb. cbn [rbind]. destruct b.
  - exists r. split; [reflexivity|]. destruct (list_eq_dec N.eq_dec r (padded_password user)) as [->|Hne]; [left; reflexivity|right].
    split; [exact Hne|]. exact Eb.
  - exists (padded_password user). split; [|left; reflexivity].
    destruct (check_key_ok bits (padded_password user) id o u perm random' Hb Hul) as (b & Eb' & Hq). rewrite Eb'.
    rewrite Hq; [reflexivity|]. apply user_of_first.
Qed.
Lemma opened_owner : forall version bits perm user owner id random random', (0 <= bits <= 40)%Z \/ (128 <= bits <= 135)%Z ->
  (List.length user <= 32)%nat -> (List.length owner <= 32)%nat -> (0 < List.length id)%nat ->
  let o := owner_of bits owner user in
  set_password owner id (dict_of version bits (rev_of bits) o (user_of bits id user o perm random) perm) random' =
    Ok (Some (key_of bits (padded_password user) id o perm)).
Proof.
  intros version bits perm user owner id random random' Hb Hu Hw Hi o.
  assert (Ho : List.length o = 32%nat) by (apply (generate_owner_ok owner user ARC4 bits Hw Hu); [left; reflexivity|lia]).
  rewrite set_password_eq; [|lia|exact Hw|unfold size_of; lia|exact Hi]. unfold o at 1. rewrite recovered_owner by exact Hb. fold o.
  destruct (check_key_ok bits (padded_password user) id o (user_of bits id user o perm random) perm random') as (b & Eb & Hq);
    [lia|apply user_of_length|]. rewrite Eb. rewrite Hq; [reflexivity|]. apply user_of_first.
Qed.

Lemma add_encryption_eq : forall s id random, (List.length (s_user s) <= 32)%nat -> (List.length (s_owner s) <= 32)%nat ->
  s_alg s = ARC4 \/ s_alg s = AAES -> (0 <= s_bits s <= 135)%Z -> (0 < List.length id)%nat ->
  let o := owner_of (s_bits s) (s_owner s) (s_user s) in
  let d := dict_of (if (40 <? s_bits s)%Z then 2 else 1)%Z (s_bits s) (rev_of (s_bits s)) o (user_of (s_bits s) id (s_user s) o (s_perm s) random) (s_perm s) in
  add_encryption s id random = do key <- set_password (s_user s) id d random;; match key with Some k => Ok (d, k) | None => Throw EGeneral end.
Proof.
  intros s id random Hu Hw Ha Hb Hi o d. unfold add_encryption. rewrite (proj2 (N.eqb_neq _ _)) by (unfold size_of; lia).
  fold (rev_of (s_bits s)). rewrite (proj1 (generate_owner_ok _ _ _ _ Hw Hu Ha Hb)). cbn [rbind].
  rewrite generate_user_ok; [|exact Hu|exact Ha|lia]. reflexivity.
Qed.

(** agreement with the standard *)
Lemma times_iterate : forall (f : bytes -> bytes) n x, times n f x = iterate n f x.
Proof.
  Transparent iterate.
  intros f n. assert (Hs : forall n x, iterate n f (f x) = f (iterate n f x)) by (induction n0 as [|m IHm]; intros x; cbn; [reflexivity|apply IHm]).
  induction n as [|n IH]; intros x; cbn; [reflexivity|]. rewrite IH. symmetry. apply Hs.
Qed.
Lemma hash_prefix_first : forall n k d, (n <= 16)%nat -> List.length d = 16%nat ->
  firstn n (iterate k (hash_prefix n) d) = firstn n (iterate k (fun d => md5 (firstn n d)) d).
Proof.
  intros n k d Hn. assert (Hg : forall k a b, List.length a = 16%nat -> firstn n a = firstn n b ->
    firstn n (iterate k (hash_prefix n) a) = firstn n (iterate k (fun d => md5 (firstn n d)) b)).
  { induction k0 as [|j IHj]; intros a b Ha He; cbn; [exact He|]. apply IHj; [now apply hash_prefix_length|].
    unfold hash_prefix. rewrite firstn_app, firstn_firstn, PeanoNat.Nat.min_id, firstn_length, md5_length.
    replace (n - Nat.min n 16)%nat with 0%nat by lia. cbn [firstn]. now rewrite app_nil_r, He. }
  intros Hd. now apply Hg.
Qed.
Lemma le_low : forall c n, le_bytes c n = low_first c n.
Proof.
  induction c as [|c IH]; intros n; [reflexivity|]. cbn [le_bytes low_first]. change 255 with (N.ones 8). rewrite N.land_ones, N.shiftr_div_pow2, IH. reflexivity.
Qed.
Lemma key_of_standard : forall bits user id o perm, (0 <= bits <= 135)%Z -> 
  key_of bits (padded_password user) id o perm = file_key (rev_of bits) (kbytes bits) user o (Z.to_N (perm mod 4294967296)) id.
Proof.
  intros bits user id o perm Hb. unfold key_of, file_key, digest_of, key_digest. rewrite le_low.
  change (wrap uint32_t perm) with (perm mod 4294967296)%Z.
  destruct (3 <=? rev_of bits)%Z; [|reflexivity]. rewrite times_iterate. apply hash_prefix_first; [unfold kbytes; lia|apply md5_length].
Qed.
Lemma object_key_standard : forall key num gen alg, object_key key num gen alg = data_key key num gen (is_aes alg).
Proof.
  intros key num gen alg. unfold object_key, data_key. f_equal; [unfold size_of; lia|].
  f_equal. f_equal. unfold object_info. cbn [low_first]. change 255 with (N.ones 8). rewrite !N.land_ones, !N.shiftr_div_pow2.
  change (2 ^ 8) with 256. rewrite !N.div_div by lia. cbn [app]. repeat f_equal.
Qed.
Lemma with_counter_eq : forall k i, with_counter k i = xor_key k i.
Proof. intros. apply map_ext. intros a. apply N.lxor_comm. Qed.
Lemma twenty_eq : forall key data, twenty_passes key data = passes key (nrange 0 20) data.
Proof.
  intros key data. unfold twenty_passes, passes. generalize (nrange 0 20). intros l. revert data.
  induction l as [|i l IH]; intros data; cbn; [reflexivity|]. rewrite with_counter_eq. apply IH.
Qed.
Lemma owner_of_standard : forall bits owner user, (0 <= bits <= 40)%Z \/ (128 <= bits <= 135)%Z ->
  owner_of bits owner user = owner_entry (rev_of bits) (kbytes bits) owner user.
Proof.
  intros bits owner user Hb. unfold owner_of, owner_entry, rev_of. destruct (40 <? bits)%Z eqn:E; [|reflexivity].
  change (3 <=? 3)%Z with true. cbv iota. apply Z.ltb_lt in E. destruct Hb as [Hb|Hb]; [lia|].
  assert (Hq : Z.quot bits 8 = 16%Z) by (rewrite Z.quot_div_nonneg by lia; Z.div_mod_to_equations; lia).
  unfold kbytes. rewrite Hq. change (Nat.min (Z.to_nat 16) 16) with 16%nat. change (Z.to_nat 16) with 16%nat.
  rewrite times_iterate. pose proof (iterate_md5_length 50 (padded_password owner)) as Hl. rewrite (firstn_all2 (iterate 50 md5 (md5 (padded_password owner)))) by lia. rewrite twenty_eq, passes_0. reflexivity.
Qed.
Lemma user_of_standard : forall bits user id o perm, bits = 40%Z \/ (128 <= bits <= 135)%Z ->
  compare_of bits (rev_of bits) (padded_password user) id o perm = user_entry (rev_of bits) (key_of bits (padded_password user) id o perm) id.
Proof.
  intros bits user id o perm Hb. pose proof (digest_of_length bits (rev_of bits) (padded_password user) id o perm) as Hl.
  unfold compare_of, user_entry, key_of. destruct Hb as [->|Hb].
  - reflexivity.
  - assert (E : rev_of bits = 3%Z) by (unfold rev_of; rewrite (proj2 (Z.ltb_lt _ _)) by lia; reflexivity). rewrite E in *.
    change (3 <=? 3)%Z with true. cbv iota. rewrite twenty_eq. f_equal.
    assert (Hq : Z.quot bits 8 = 16%Z) by (rewrite Z.quot_div_nonneg by lia; Z.div_mod_to_equations; lia).
    assert (Hkb : kbytes bits = 16%nat) by (unfold kbytes; rewrite Hq; reflexivity). symmetry. apply firstn_all2. lia.
Qed.

(** padding and AES *)
Lemma add_padding_ne : forall d, d <> [] -> add_padding d <> d.
Proof.
  intros d _ E. unfold add_padding in E. apply (f_equal (@List.length N)) in E. rewrite app_length, repeat_length in E.
  destruct (size_of d mod 16 =? 0) eqn:Ez; [lia|]. apply N.eqb_neq in Ez. lia.
Qed.
Lemma remove_standard : forall data k, (1 <= k <= 16)%nat -> remove_padding (data ++ repeat (N.of_nat k) k) = data.
Proof.
  intros data k Hk. unfold remove_padding. rewrite rev_app_distr.
  assert (Hr : rev (repeat (N.of_nat k) k) = repeat (N.of_nat k) k).
  { clear Hk. assert (Hg : forall (x : N) j, rev (repeat x j) = repeat x j); [|apply Hg].
    induction j as [|j IH]; [reflexivity|]. cbn [repeat rev]. rewrite IH. clear IH. induction j as [|j IH]; [reflexivity|]. cbn. now rewrite IH. }
  rewrite Hr. destruct k as [|k]; [lia|]. cbn [repeat app]. set (x := N.of_nat (S k)).
  assert (Hs : size_of (data ++ x :: repeat x k) = size_of data + x) by (unfold size_of; rewrite app_length; cbn [List.length]; rewrite repeat_length; lia).
  rewrite Hs. rewrite (proj2 (N.ltb_ge _ _)) by lia. rewrite (proj2 (N.ltb_ge 16 x)) by lia. cbn [orb].
  replace (N.to_nat (size_of data + x - x)) with (List.length data) by (unfold size_of; lia).
  rewrite skipn_app, skipn_all, PeanoNat.Nat.sub_diag. cbn [skipn app]. rewrite firstn_app, firstn_all, PeanoNat.Nat.sub_diag. cbn [firstn]. rewrite app_nil_r.
  replace (forallb (N.eqb x) (x :: repeat x k)) with true; [reflexivity|]. symmetry. apply forallb_forall.
  intros y Hy. cbn in Hy. destruct Hy as [<-|Hy]; [apply N.eqb_refl|]. apply repeat_spec in Hy. subst. apply N.eqb_refl.
Qed.
Lemma nmod_of_nat : forall n, N.of_nat n mod 16 = N.of_nat (n mod 16).
Proof. intros n. change 16 with (N.of_nat 16) at 1. now rewrite <- Nat2N.inj_mod. Qed.
Lemma openssl_is_pkcs7 : forall d, openssl_padding d = pkcs7 d.
Proof.
  intros d. unfold openssl_padding, pkcs7, size_of. rewrite nmod_of_nat.
  pose proof (PeanoNat.Nat.mod_upper_bound (List.length d) 16). f_equal.
  replace (16 - N.of_nat (List.length d mod 16)) with (N.of_nat (16 - List.length d mod 16)) by lia. f_equal. lia.
Qed.
Lemma pkcs7_length : forall d, (List.length (pkcs7 d) mod 16 = 0)%nat /\ (List.length d < List.length (pkcs7 d))%nat /\ (List.length (pkcs7 d) <= List.length d + 16)%nat.
Proof.
  intros d. unfold pkcs7. rewrite app_length, repeat_length. set (n := List.length d).
  pose proof (PeanoNat.Nat.mod_upper_bound n 16) as H. pose proof (PeanoNat.Nat.div_mod n 16) as H1.
  split; [|lia]. replace (n + (16 - n mod 16))%nat with ((n / 16 + 1) * 16)%nat by lia. apply PeanoNat.Nat.mod_mul. lia.
Qed.
Lemma remove_pkcs7 : forall d, remove_padding (pkcs7 d) = d.
Proof.
  intros d. unfold pkcs7. apply remove_standard. pose proof (PeanoNat.Nat.mod_upper_bound (List.length d) 16). lia.
Qed.
Lemma add_padding_length : forall d, d <> [] -> (List.length d < List.length (add_padding d) <= List.length d + 16)%nat.
Proof.
  intros d Hd. unfold add_padding. rewrite app_length, repeat_length. pose proof (N.mod_upper_bound (size_of d) 16).
  destruct (size_of d mod 16 =? 0) eqn:E; [lia|]. apply N.eqb_neq in E. lia.
Qed.

Lemma aes_decrypt_standard : forall enc dec key iv data, block_cipher enc dec -> (List.length key = 16 \/ List.length key = 32)%nat ->
  List.length iv = 16%nat -> (Z.of_nat (List.length data) + 16 < 2147483647)%Z ->
  aes_decrypt dec key (size_of key) (iv ++ enc key iv (pkcs7 data)) = Ok data.
Proof.
  intros enc dec key iv data Hc Hk Hi Hd. destruct (pkcs7_length data) as (Hm & Hl & Hu).
  destruct (Hc key iv (pkcs7 data) Hk Hi Hm) as (Hel & He). unfold aes_decrypt.
  assert (Hs : size_of (iv ++ enc key iv (pkcs7 data)) = 16 + N.of_nat (List.length (pkcs7 data))) by (unfold size_of; rewrite app_length, Hi, Hel; lia).
  rewrite Hs. rewrite (proj2 (N.ltb_ge _ _)) by lia. rewrite (proj2 (N.eqb_neq _ _)) by lia.
  replace (negb ((size_of key =? 16) || (size_of key =? 32))) with false.
  2: { unfold size_of. destruct Hk as [->| ->]; reflexivity. }
  rewrite N.ltb_irrefl. rewrite to_int by lia. cbn [rbind].
  replace (16 + N.of_nat (List.length (pkcs7 data)) - 16) with (N.of_nat (List.length (pkcs7 data))) by lia.
  rewrite nmod_of_nat, Hm. cbn [N.of_nat N.eqb negb]. rewrite size_of_nat, firstn_all.
  rewrite firstn_app, skipn_app, Hi, PeanoNat.Nat.sub_diag. rewrite (firstn_all2 iv) by lia. rewrite (skipn_all2 iv) by lia. cbn [firstn skipn app].
  rewrite app_nil_r, He, remove_pkcs7. reflexivity.
Qed.
Lemma aes_encrypt_eq : forall enc key iv data, (List.length key = 16 \/ List.length key = 32)%nat -> data <> [] ->
  (Z.of_nat (List.length data) + 16 < 2147483647)%Z -> aes_encrypt enc key (size_of key) iv data = Ok (iv ++ enc key iv (pkcs7 (add_padding data))).
Proof.
  intros enc key iv data Hk Hd Hl. unfold aes_encrypt. rewrite (proj2 (N.eqb_neq _ _)) by (unfold size_of; destruct data; [easy|cbn [List.length]; lia]).
  replace (negb ((size_of key =? 16) || (size_of key =? 32))) with false.
  2: { unfold size_of. destruct Hk as [->| ->]; reflexivity. }
  rewrite N.ltb_irrefl. pose proof (add_padding_length data Hd). rewrite to_int by (unfold size_of; lia). cbn [rbind].
  rewrite size_of_nat, firstn_all, openssl_is_pkcs7. reflexivity.
Qed.

Lemma object_key_length : forall key num gen alg, List.length (object_key key num gen alg) = Nat.min (List.length key + 5) 16.
Proof. intros. unfold object_key. rewrite firstn_length, md5_length. unfold size_of. lia. Qed.

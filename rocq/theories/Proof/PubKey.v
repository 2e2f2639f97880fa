(** Proofs about documents that are protected for the holders of certificates. *)
From Coq Require Import List NArith ZArith Bool String Lia.
From Coq Require Import List.
From Verif.Model Require Import Base SMap Object Arith Encryption PubKey.
From Verif.Spec Require Import PubKey.
From Verif.Proof Require Import Tac.
From Verif.Proof Require Encryption.
Import ListNotations.
Local Open Scope N_scope.

Lemma beq_iff : forall a b, beq a b = true <-> a = b.
Proof. intros a b. unfold beq. destruct (list_eq_dec N.eq_dec a b); split; congruence. Qed.
Lemma beq_self : forall a, beq a a = true.
Proof. intros a. now apply beq_iff. Qed.

Lemma find_contains : forall k (d : dict), sm_contains k d = match sm_find k d with Some _ => true | None => false end.
Proof. intros k d. unfold sm_contains. destruct (sm_find k d); reflexivity. Qed.

Definition strings_of (r : list obj) (l : list bytes) : Prop := Forall2 (fun o s => o = OLit s \/ o = OHex s) r l.
Lemma as_string_of : forall o s, o = OLit s \/ o = OHex s -> as_string o = Ok s.
Proof. intros o s [->| ->]; reflexivity. Qed.
Lemma as_string_inv : forall o s, as_string o = Ok s -> o = OLit s \/ o = OHex s.
Proof. intros o s H. destruct o; cbn [as_string] in H; try discriminate; injection H as <-; [now left|now right]. Qed.
Lemma all_strings_of : forall r l, strings_of r l -> all_strings r = Ok (concat l).
Proof.
  induction 1 as [|o s r l Ho _ IH]; [reflexivity|]. cbn [all_strings]. rewrite (as_string_of _ _ Ho). cbn [rbind]. rewrite IH. reflexivity.
Qed.

Lemma named_same : forall i c c', named i c -> named i c' -> c = c'.
Proof. intros i [a b] [a' b'] [H1 H2] [H3 H4]. cbn in *. congruence. Qed.
Lemma contains_named : forall holder room c i own, ri_issuer i = Some own ->
  k_contains (key_of holder room c) own (ri_serial i) = true <-> named i c.
Proof.
  intros holder room c i own E. unfold key_of, pkcs12, named. cbn [k_contains]. rewrite andb_true_iff, !beq_iff, E. split.
  - intros [-> ->]. now split.
  - intros [H1 H2]. split; congruence.
Qed.

Section P.
Variable parse : bytes -> option envelope.
Variable key_size : bytes -> option nat.
Variable unseal : bytes -> bytes -> option bytes.
Variables sha1 sha256 : bytes -> bytes.
Variable holder : key_holders.
Variable room : nat.

Lemma infos_unnamed : forall c sealed infos, (forall i, In i infos -> ~ named i c) ->
  try_infos key_size unseal (key_of holder room c) sealed infos = Ok None.
Proof.
  intros c sealed infos. induction infos as [|i infos IH]; intros H; [reflexivity|]. cbn [try_infos].
  assert (Hr : forall j, In j infos -> ~ named j c) by (intros j Hj; apply H; now right).
  destruct (ri_issuer i) as [own|] eqn:E; [|exact (IH Hr)].
  destruct (k_contains (key_of holder room c) own (ri_serial i)) eqn:Ec; [|exact (IH Hr)].
  exfalso. apply (H i (or_introl eq_refl)). now apply (contains_named holder room c i own E).
Qed.

Lemma infos_named : forall c sealed infos k content,
  (exists i, In i infos /\ named i c) -> (forall i, In i infos -> named i c -> holder c (ri_key i) = Some k) ->
  key_size sealed = Some (List.length k) -> unseal k sealed = Some content ->
  try_infos key_size unseal (key_of holder room c) sealed infos = Ok (Some content).
Proof.
  intros c sealed infos k content. induction infos as [|i infos IH]; intros (j & Hj & Hn) Hk Hs Hu; [destruct Hj|].
  cbn [try_infos]. destruct (ri_issuer i) as [own|] eqn:E.
  - destruct (k_contains (key_of holder room c) own (ri_serial i)) eqn:Ec; cbn [negb].
    + apply (contains_named holder room c i own E) in Ec. unfold key_of at 1, pkcs12. cbn [k_decrypt].
      rewrite (Hk i (or_introl eq_refl) Ec). cbn [rbind]. rewrite Hs, app_length.
      rewrite (proj2 (PeanoNat.Nat.ltb_ge _ _)) by lia. rewrite firstn_app, PeanoNat.Nat.sub_diag, firstn_all. cbn [firstn].
      rewrite app_nil_r, Hu. reflexivity.
    + apply IH; try assumption.
      * exists j. split; [|exact Hn]. destruct Hj as [->|Hj]; [|exact Hj].
        apply (contains_named holder room c j own E) in Hn. congruence.
      * intros a Ha. apply Hk. now right.
  - apply IH; try assumption.
    + exists j. split; [|exact Hn]. destruct Hj as [->|Hj]; [|exact Hj]. destruct Hn as [Hn _]. congruence.
    + intros a Ha. apply Hk. now right.
Qed.

Lemma forall2_in_r : forall (A B : Type) (R : A -> B -> Prop) l m b, Forall2 R l m -> In b m -> exists a, In a l /\ R a b.
Proof.
  intros A B R l m b H. induction H as [|x y l m Hxy _ IH]; intros Hb; [destruct Hb|].
  destruct Hb as [->|Hb]; [exists x; split; [now left|exact Hxy]|]. destruct (IH Hb) as (a & Ha & Hr). exists a. split; [now right|exact Hr].
Qed.
Lemma forall2_in_l : forall (A B : Type) (R : A -> B -> Prop) l m a, Forall2 R l m -> In a l -> exists b, In b m /\ R a b.
Proof.
  intros A B R l m a H. induction H as [|x y l m Hxy _ IH]; intros Hb; [destruct Hb|].
  destruct Hb as [->|Hb]; [exists y; split; [now left|exact Hxy]|]. destruct (IH Hb) as (b & Ha & Hr). exists b. split; [now right|exact Hr].
Qed.

Lemma groups_open : forall seed gs r c, groups_of parse key_size unseal holder seed gs -> strings_of r (map g_string gs) ->
  Forall (fun g => (Z.of_nat (List.length (g_string g)) < 2147483647)%Z) gs ->
  (exists g, In g gs /\ In c (g_certificates g)) ->
  exists p, decrypt_enveloped parse key_size unseal (key_of holder room c) r = Ok (seed ++ p).
Proof.
  intros seed gs r c [Hseed HG]. revert r. induction gs as [|g gs IH]; intros r Hr Hz (g0 & Hg0 & Hc0); [destruct Hg0|].
  cbn [map] in Hr. inversion Hr as [|o s r' l' Ho Hr' E1 E2]. subst r. cbn [decrypt_enveloped]. rewrite (as_string_of _ _ Ho). cbn [rbind].
  apply Forall_cons_iff in Hz as [Hz1 Hz]. apply Forall_cons_iff in HG as [[(e & k & Hp & HF & Hk & Hs & Hu) _] HG].
  rewrite Encryption.to_int by (unfold size_of; lia). cbn [rbind]. rewrite Hp.
  destruct (Exists_dec (fun i => named i c) (e_infos e)) as [HE|HE].
  { intros i. unfold named. destruct (option_map (beq (issuer c)) (ri_issuer i)) as [[|]|] eqn:E1'.
    - destruct (list_eq_dec N.eq_dec (ri_serial i) (serial c)) as [Hs'|Hs'].
      + left. destruct (ri_issuer i) as [x|]; [|discriminate]. cbn in E1'. injection E1' as E1'. apply beq_iff in E1'. now subst.
      + right. now intros [_ Hx].
    - right. intros [Hx _]. rewrite Hx in E1'. cbn in E1'. rewrite beq_self in E1'. discriminate.
    - right. intros [Hx _]. rewrite Hx in E1'. discriminate. }
  - apply Exists_exists in HE as (i & Hi & Hn). destruct (forall2_in_l _ _ _ _ _ _ HF Hi) as (c' & Hc' & Hn').
    pose proof (named_same _ _ _ Hn Hn') as <-. 
    rewrite (infos_named c (e_sealed e) (e_infos e) k (seed ++ g_permissions g)); [|now exists i|intros a Ha Hna; now apply (Hk a c)|exact Hs|exact Hu].
    cbn [rbind]. now exists (g_permissions g).
  - rewrite infos_unnamed; [|intros i Hi Hn; apply HE; apply Exists_exists; now exists i]. cbn [rbind].
    apply (IH HG r' Hr' Hz). destruct Hg0 as [->|Hg0]; [|now exists g0]. exfalso. apply HE. apply Exists_exists.
    destruct (forall2_in_r _ _ _ _ _ _ HF Hc0) as (i & Hi & Hn). now exists i.
Qed.

Lemma recipient_key_ok : forall seed gs r c bits alg, groups_of parse key_size unseal holder seed gs -> strings_of r (map g_string gs) ->
  Forall (fun g => (Z.of_nat (List.length (g_string g)) < 2147483647)%Z) gs ->
  (exists g, In g gs /\ In c (g_certificates g)) -> (0 <= bits <= 2147483647)%Z ->
  recipient_key parse key_size unseal sha1 sha256 r bits alg (key_of holder room c) =
  Ok (public_file_key (if (bits =? 256)%Z && is_aes alg then sha256 else sha1) (Z.to_nat (bits / 8)) seed (map g_string gs) true).
Proof.
  intros seed gs r c bits alg HG Hr Hz Hc Hb. unfold recipient_key. destruct (groups_open seed gs r c HG Hr Hz Hc) as (p & ->). cbn [rbind].
  destruct HG as [Hseed _]. rewrite app_length, (proj2 (PeanoNat.Nat.ltb_ge _ _)) by lia. rewrite (all_strings_of _ _ Hr). cbn [rbind].
  rewrite Z.quot_div_nonneg by lia. assert (Hq : (0 <= bits / 8 <= 2147483647)%Z) by (Z.div_mod_to_equations; lia).
  rewrite Encryption.to_size64 by exact Hq. cbn [rbind]. unfold public_file_key. rewrite app_nil_r.
  replace (firstn 20 (seed ++ p)) with seed.
  2: { rewrite <- Hseed. rewrite firstn_app, PeanoNat.Nat.sub_diag, firstn_all. now rewrite firstn_O, app_nil_r. }
  f_equal. set (dg := (if (bits =? 256)%Z && is_aes alg then sha256 else sha1) (seed ++ concat (map g_string gs))). clearbody dg.
  destruct (Z.ltb_spec (bits / 8) (Z.of_nat (List.length dg))) as [Hd|Hd]; [reflexivity|]. rewrite firstn_all2; [reflexivity|].
  clear - Hd. remember (bits / 8)%Z as q. clear Heqq. lia.
Qed.

(** the other side: nobody else is let in *)
Lemma unnamed_closed : forall c r, (forall s, In (OLit s) r \/ In (OHex s) r -> not_named_in parse s c) ->
  exists e, decrypt_enveloped parse key_size unseal (key_of holder room c) r = Throw e.
Proof.
  intros c r. induction r as [|o r IH]; intros H; [now exists EGeneral|]. cbn [decrypt_enveloped].
  destruct (as_string o) as [s| | |] eqn:Es; cbn [rbind].
  2: { now exists e. }
  2, 3: destruct o; discriminate.
  unfold safe_convert. destruct (is_in_range _ _ _); cbn [rbind]; [|now exists EConversion].
  assert (IH' := IH ltac:(intros s' Hs'; apply H; destruct Hs'; [left|right]; now right)).
  destruct (parse s) as [e|] eqn:Ep; [|exact IH']. rewrite infos_unnamed; [exact IH'|].
  intros i Hi. apply (H s) with (e := e); [|exact Ep|exact Hi]. apply as_string_inv in Es as [->| ->]; [left|right]; now left.
Qed.

Lemma unnamed_key : forall c r bits alg, (forall s, In (OLit s) r \/ In (OHex s) r -> not_named_in parse s c) ->
  exists e, recipient_key parse key_size unseal sha1 sha256 r bits alg (key_of holder room c) = Throw e.
Proof.
  intros c r bits alg H. destruct (unnamed_closed c r H) as (e & E). exists e. unfold recipient_key. rewrite E. reflexivity.
Qed.
End P.

(** the settings *)
Lemma find_name_of : forall k d n, sm_find k d = Some (OName n) -> find_name k d = Ok n.
Proof. intros k d n H. unfold find_name. now rewrite H. Qed.
Lemma length_of : forall (d : dict) bits, sm_find (str "Length") d = Some (OInt bits) \/ sm_find (str "Length") d = None /\ bits = 40%Z ->
  find_length_bits d = Ok bits.
Proof.
  intros d bits [H|[H ->]]; unfold find_length_bits; rewrite find_contains, H; [unfold find_integer; now rewrite H|reflexivity].
Qed.
Lemma settings_old : forall d bits l, says_old d bits l -> exists r, handler_settings d = Ok (r, bits, ANone) /\ strings_of r l.
Proof.
  intros d bits l (f & s & Hf & Hs & Hsub & Hl & r & Hr & HF). exists r. split; [|exact HF]. unfold handler_settings.
  rewrite (find_name_of _ _ _ Hf), (find_name_of _ _ _ Hs), (length_of _ _ Hl). cbn [rbind].
  replace (beq s (str "adbe.pkcs7.s3") || beq s (str "adbe.pkcs7.s4")) with true; [|symmetry; apply orb_true_iff; rewrite !beq_iff; exact Hsub].
  unfold find_array. rewrite Hr. reflexivity.
Qed.
Definition method_algorithm (method : bytes) : algorithm :=
  if beq method (str "AESV2") || beq method (str "AESV3") then AAES else if beq method (str "V2") then ARC4 else ANone.
Lemma settings_filter : forall d method flt l bits, says_filter d (str "DefaultCryptFilter") method flt l ->
  (beq method (str "AESV3") = true /\ sm_find (str "Length") flt = Some (OInt bits) /\ (exists other, find_length_bits d = Ok other) \/
   (beq method (str "AESV3") = false \/ sm_find (str "Length") flt = None) /\ find_length_bits d = Ok bits) ->
  exists r, handler_settings d = Ok (r, bits, method_algorithm method) /\ strings_of r l.
Proof.
  intros d method flt l bits (f & cf & Hf & Hs & Hcf & Hn & Hm & r & Hr & HF) Hb. exists r. split; [|exact HF]. unfold handler_settings.
  rewrite (find_name_of _ _ _ Hf), (find_name_of _ _ _ Hs). cbn [rbind].
  assert (Hother : exists other, find_length_bits d = Ok other) by (destruct Hb as [(_ & _ & H)|(_ & H)]; [exact H|eexists; exact H]).
  destruct Hother as (other & Hother). rewrite Hother. cbn [rbind].
  change (beq (str "adbe.pkcs7.s5") (str "adbe.pkcs7.s3") || beq (str "adbe.pkcs7.s5") (str "adbe.pkcs7.s4")) with false.
  change (beq (str "adbe.pkcs7.s5") (str "adbe.pkcs7.s5")) with true. cbv iota.
  rewrite !find_contains, Hcf. cbn [negb]. unfold find_dict at 1. rewrite Hcf. cbn [rbind]. rewrite !find_contains, Hn. cbn [negb].
  unfold find_dict at 1. rewrite Hn. cbn [rbind]. rewrite !find_contains, Hm. cbn [negb]. rewrite (find_name_of _ _ _ Hm). cbn [rbind].
  unfold find_array. rewrite Hr. unfold method_algorithm. destruct Hb as [(H1 & H2 & _)|([H1|H1] & H2)].
  - rewrite H1, H2. cbn [andb]. unfold find_integer. rewrite H2. reflexivity.
  - rewrite H1. cbn [andb rbind]. congruence.
  - rewrite H1, andb_false_r. cbn [rbind]. congruence.
Qed.

(** every string that the settings name is offered by the document *)
Lemma settings_offered : forall d r bits alg s, handler_settings d = Ok (r, bits, alg) -> In (OLit s) r \/ In (OHex s) r -> offered d s.
Proof.
  intros d r bits alg s E Hs. unfold handler_settings in E.
  destruct (find_name (str "Filter") d); try discriminate. cbn [rbind] in E.
  destruct (find_name (str "SubFilter") d) as [sub| | |]; try discriminate. cbn [rbind] in E.
  destruct (find_length_bits d) as [bb| | |]; try discriminate. cbn [rbind] in E.
  assert (Nil : forall (x : Z) (y : algorithm), @Ok (list obj * Z * algorithm) ([], x, y) = Ok (r, bits, alg) -> offered d s).
  { intros x y H. injection H as <- _ _. destruct Hs as [[]|[]]. }
  destruct (beq sub (str "adbe.pkcs7.s3") || beq sub (str "adbe.pkcs7.s4")).
  - unfold find_array in E. destruct (sm_find (str "Recipients") d) as [[]|] eqn:Er; try discriminate. cbn [rbind] in E.
    injection E as E _ _. subst l. exists r. split; [exact Hs|now left].
  - destruct (beq sub (str "adbe.pkcs7.s5")); [|exact (Nil _ _ E)]. rewrite !find_contains in E.
    destruct (sm_find (str "CF") d) as [v|] eqn:Ecf; [|exact (Nil _ _ E)]. cbn [negb] in E. unfold find_dict at 1 in E. rewrite Ecf in E.
    destruct v; try discriminate. cbn [rbind] in E. rewrite !find_contains in E.
    destruct (sm_find (str "DefaultCryptFilter") l) as [v|] eqn:En; [|exact (Nil _ _ E)]. cbn [negb] in E. unfold find_dict at 1 in E. rewrite En in E.
    destruct v as [| | | | | | | | |flt|]; try discriminate. cbn [rbind] in E. rewrite !find_contains in E.
    destruct (sm_find (str "CFM") flt) as [v|] eqn:Em; [|exact (Nil _ _ E)]. cbn [negb] in E.
    destruct (find_name (str "CFM") flt) as [method| | |]; try discriminate. cbn [rbind] in E.
    match type of E with context [rbind ?x _] => destruct x as [bits'| | |]; try discriminate end. cbn [rbind] in E.
    unfold find_array in E. destruct (sm_find (str "Recipients") flt) as [[]|] eqn:Er; try discriminate. cbn [rbind] in E.
    injection E as E _ _. subst l0. exists r. split; [exact Hs|]. right. exists l, (str "DefaultCryptFilter"), flt. now repeat split.
Qed.

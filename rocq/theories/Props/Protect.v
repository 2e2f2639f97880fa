(** C69: the protection a program asks for. *)
From Coq Require Import List NArith ZArith Bool Lia String.
From Verif.Model Require Import Base SMap Object Containers Xref Chain Merge Encryption Protect.
From Verif.Spec Require Import Strings Grammar Containers Encryption Protect.
From Verif.Proof Require Import Tac FileWrite Encryption.
From Verif.Proof Require SMap StreamObj Containers Merge.
From Verif.Props Require Encryption.
Import ListNotations.
Local Open Scope Z_scope.

Lemma flag_bit : forall a, flag a = 2 ^ (bit a - 1).
Proof. intros []; reflexivity. Qed.
Lemma land_flag : forall v a, Z.land v (flag a) = if Z.testbit v (bit a - 1) then flag a else 0.
Proof.
  intros v a. rewrite flag_bit. apply Z.bits_inj'. intros n Hn. rewrite Z.land_spec.
  assert (B : 0 <= bit a - 1) by (destruct a; discriminate).
  destruct (Z.eq_dec n (bit a - 1)) as [->|D].
  - rewrite Z.pow2_bits_true by exact B. rewrite andb_true_r. destruct (Z.testbit v (bit a - 1)) eqn:E; [rewrite Z.pow2_bits_true by exact B; reflexivity|rewrite Z.bits_0; reflexivity].
  - rewrite Z.pow2_bits_false by lia. rewrite andb_false_r. destruct (Z.testbit v (bit a - 1)); [rewrite Z.pow2_bits_false by lia; reflexivity|rewrite Z.bits_0; reflexivity].
Qed.
Definition actions : list action := [Print; Modify; Copy; Annotate; FillForms; Extract; Assemble; PrintFaithfully].
Lemma step_bits : forall v p a n, 0 <= n -> Z.testbit (permission_step v p (flag a)) n = Z.testbit p n && negb ((n =? bit a - 1) && Z.testbit v n).
Proof.
  intros v p a n Hn. unfold permission_step. rewrite land_flag. assert (B : 0 <= bit a - 1) by (destruct a; discriminate).
  destruct (Z.testbit v (bit a - 1)) eqn:E.
  - replace (flag a =? 0) with false by (destruct a; reflexivity). rewrite Z.land_spec, Z.lnot_spec, flag_bit by exact Hn. f_equal. f_equal.
    destruct (Z.eqb_spec n (bit a - 1)) as [->|D]; [rewrite Z.pow2_bits_true, E by exact B; reflexivity|rewrite Z.pow2_bits_false by lia; reflexivity].
  - change (0 =? 0) with true. destruct (Z.eqb_spec n (bit a - 1)) as [->|D]; [rewrite E|]; rewrite andb_true_r; reflexivity.
Qed.
Lemma permission_bits : forall v n, 0 <= n -> Z.testbit (permission_integer v) n = negb (existsb (fun a => n =? bit a - 1) actions && Z.testbit v n).
Proof.
  intros v n Hn. unfold permission_integer. change permission_flags with (map flag actions). cbn [map actions fold_left].
  rewrite !step_bits, Z.bits_m1 by exact Hn. cbn [existsb actions]. destruct (Z.testbit v n); repeat rewrite ?andb_true_r, ?andb_false_r; [|reflexivity].
  cbn [bit]. repeat match goal with |- context [n =? ?x] => destruct (n =? x); [reflexivity|] end. reflexivity.
Qed.

(** The number P of the document is exactly the reverse of what was asked for: every action the program allows is forbidden, and every action it does
    not allow is permitted, for all combinations of flags. *)
Theorem C69_permissions_refuted : forall flags a, permits (permission_integer flags) a <-> ~ asked flags a.
Proof.
  intros flags a. unfold permits, asked. rewrite land_flag. rewrite permission_bits by (destruct a; discriminate).
  assert (E : existsb (fun b => bit a - 1 =? bit b - 1) actions = true) by (destruct a; reflexivity). rewrite E. cbn [andb].
  destruct (Z.testbit flags (bit a - 1)); cbn [negb].
  - split; [discriminate|]. intros H. exfalso. apply H. destruct a; discriminate.
  - split; [intros _ H; apply H; reflexivity|reflexivity].
Qed.
(** "No actions are allowed" allows every action. *)
Theorem C69_none_refuted : forall a, ~ asked 0 a /\ permits (permission_integer 0) a.
Proof. intros a. split; [intros H; apply H; destruct a; reflexivity|destruct a; reflexivity]. Qed.
(** All other bits of P are one, as the standard asks for (bits 7, 8 and 13 to 32); bits 1 and 2, which shall be zero, are one as well. *)
Theorem C69_other_bits : forall flags n, 0 <= n -> (forall a, n <> bit a - 1) -> Z.testbit (permission_integer flags) n = true.
Proof.
  intros flags n Hn H. rewrite permission_bits by exact Hn. replace (existsb (fun a => n =? bit a - 1) actions) with false; [reflexivity|].
  symmetry. apply not_true_is_false. intros E. apply existsb_exists in E. destruct E as (a & _ & E). apply (H a). lia.
Qed.
(** The encryption dictionary holds this number, the key length asked for, and always says that the data is enciphered with RC4, whatever
    algorithm was asked for. *)
Lemma added : forall s id random d key, add_encryption s id random = Ok (d, key) ->
  exists v r o u, d = dict_of v (s_bits s) r o u (s_perm s) /\ (v = 1 \/ v = 2).
Proof.
  intros s id random d key H. unfold add_encryption in H. destruct (size_of id =? 0)%N; [discriminate|].
  apply rbind_ok in H. destruct H as (o & _ & H). apply rbind_ok in H. destruct H as (u & _ & H). apply rbind_ok in H. destruct H as (k & _ & H).
  destruct k as [k|]; [|discriminate]. apply Ok_inj, pair_equal_spec in H. destruct H as [H _].
  exists (if 40 <? s_bits s then 2 else 1), (if 40 <? s_bits s then 3 else 2), o, u. split; [symmetry; exact H|]. destruct (40 <? s_bits s); auto.
Qed.
Theorem C69_entries : forall user owner alg bits flags id random d key, add_encryption (requested user owner alg bits flags) id random = Ok (d, key) ->
  find_integer (str "P") d = Ok (permission_integer flags) /\ find_integer (str "Length") d = Ok bits.
Proof.
  intros user owner alg bits flags id random d key H. destruct (added _ _ _ _ _ H) as (v & r & o & u & -> & _).
  destruct (dict_of_finds v bits r o u (permission_integer flags)) as (_ & _ & _ & Ep & _ & _ & El). split; [exact Ep|reflexivity].
Qed.
(** The passwords: the document opens with the user password asked for, and the O entry is the one of the standard for the two passwords. *)
Theorem C69_passwords : forall user owner alg bits flags id random, (List.length user <= 32)%nat -> (List.length owner <= 32)%nat ->
  alg = ARC4 \/ alg = AAES -> bits = 40 \/ bits = 128 -> id <> [] ->
  exists d key, add_encryption (requested user owner alg bits flags) id random = Ok (d, key) /\
    (forall random', set_password user id d random' = Ok (Some key)) /\
    find_string (str "O") d = Ok (owner_entry (if 40 <? bits then 3 else 2) (Z.to_nat (bits / 8)) owner user).
Proof.
  intros user owner alg bits flags id random Hu Hw Ha Hb Hi.
  destruct (Props.Encryption.C34_user_password_opens (requested user owner alg bits flags) id random Hu Hw Ha ltac:(cbn [requested s_bits]; lia) Hi) as (d & key & E1 & E2).
  destruct (Props.Encryption.C34_standard_entries_partial (requested user owner alg bits flags) id random Hu Hw Ha Hb Hi) as (d' & key' & E1' & E3 & _).
  rewrite E1 in E1'. apply Ok_inj, pair_equal_spec in E1'. destruct E1' as [<- <-]. exists d, key. split; [exact E1|]. split; [exact E2|exact E3].
Qed.
Theorem C69_algorithm_refuted : forall cbc_encrypt user owner alg bits flags id random d key c iv data num gen,
  add_encryption (requested user owner alg bits flags) id random = Ok (d, key) ->
  c_dict c = d -> c_key c = Some key -> is_place c num gen = false -> num <> 0%N ->
  encrypt_string cbc_encrypt c iv data num gen = compute_rc4 (object_key key num gen ARC4) data /\
  encrypt_stream cbc_encrypt c iv data num gen = compute_rc4 (object_key key num gen ARC4) data.
Proof.
  intros cbc user owner alg bits flags id random d key c iv data num gen H Ed Ek Hp Hn. destruct (added _ _ _ _ _ H) as (v & r & o & u & Dd & Hv).
  assert (A : forall k, data_algorithm (c_dict c) k = Ok ARC4).
  { intros k. rewrite Ed, Dd. unfold data_algorithm. destruct (dict_of_finds v bits r o u (permission_integer flags)) as (_ & _ & _ & _ & _ & Ev & _).
    cbn [s_bits s_perm requested]. rewrite Ev. cbn [rbind]. destruct Hv as [->| ->]; reflexivity. }
  assert (G : forall k, encrypt_with cbc k c iv data num gen = compute_rc4 (object_key key num gen ARC4) data).
  { intros k. unfold encrypt_with. rewrite A. cbn [rbind]. unfold encrypt_data, current_key. rewrite Ek. cbn [rbind]. rewrite Hp, orb_false_r.
    replace (match c_place c with Some _ => (num =? 0)%N | None => false end) with false by (destruct (c_place c); [symmetry; apply N.eqb_neq; exact Hn|reflexivity]).
    cbn [is_aes]. rewrite andb_false_r. reflexivity. }
  split; apply G.
Qed.
(** Asking for no or an undefined algorithm is an error. *)
Theorem C69_no_algorithm : forall user owner alg bits flags id random, alg = ANone \/ alg = AUndefined -> id <> [] ->
  add_encryption (requested user owner alg bits flags) id random = Throw EGeneral.
Proof.
  intros user owner alg bits flags id random Ha Hi. unfold add_encryption. rewrite (proj2 (N.eqb_neq _ _)) by (unfold size_of; destruct id; [easy|cbn; lia]).
  unfold generate_owner. destruct Ha as [->| ->]; reflexivity.
Qed.

(** ** The trailer of the saved document, whose sections are merged (C27).  The chain is written newest section first. *)
Lemma enc_bytes : all_bytes (str "Encrypt").
Proof. apply Proof.StreamObj.str_bytes. Qed.
Lemma kind_cases : forall hd c, (forall s, In s c -> s_hybrid s = None) ->
  (merged_kind hd c = (STable, [])) \/ exists s, In s c /\ s_kind s = SStream /\ merged_kind hd c = (SStream, s_trailer s).
Proof.
  intros hd. induction c as [|s c IH]; intros H; [left; reflexivity|]. cbn [merged_kind]. rewrite (H s (or_introl eq_refl)).
  destruct (s_kind s) eqn:K; [|right; exists s; split; [left; reflexivity|split; [exact K|reflexivity]]|];
    (destruct IH as [E|(x & Hx & Kx & E)]; [intros x Hx; apply H; right; exact Hx|left; exact E|right; exists x; split; [right; exact Hx|split; assumption]]).
Qed.
Lemma merged_encrypt : forall hd newest older m, (forall s, In s (newest :: older) -> s_hybrid s = None /\ proper_trailer s) ->
  merge_chain hd (rev (newest :: older)) = Ok [m] ->
  sm_find (str "Encrypt") (s_trailer m) = sm_find (str "Encrypt") (s_trailer newest) \/
  exists s v, In s (newest :: older) /\ s_kind s = SStream /\ sm_find (str "Encrypt") (s_trailer s) = Some v /\ sm_find (str "Encrypt") (s_trailer m) = Some v.
Proof.
  intros hd newest older m H M. assert (C : forall k base, merged_kind hd (rev (newest :: older)) = (k, base) -> ordered base -> Forall (fun e => all_bytes (fst e)) base ->
    sm_find (str "Encrypt") (s_trailer m) = match sm_find (str "Encrypt") base with Some v => Some v | None => sm_find (str "Encrypt") (s_trailer newest) end).
  { intros k base K O B. rewrite (Proof.Merge.merged_trailer hd _ newest (rev older) m eq_refl M base k K (conj O (conj B (fun _ _ => eq_refl))) (str "Encrypt") enc_bytes ltac:(discriminate)).
    destruct (sm_find (str "Encrypt") base); [reflexivity|]. destruct (list_eq_dec N.eq_dec (str "Encrypt") (str "Size")) as [E|_]; [discriminate|].
    destruct (in_dec (list_eq_dec N.eq_dec) (str "Encrypt") trailer_keys) as [_|X]; [reflexivity|]. exfalso. apply X. unfold trailer_keys. cbn [In]. tauto. }
  destruct (kind_cases hd (rev (newest :: older))) as [K|(s & Hs & Ks & K)].
  - intros s Hs. apply in_rev in Hs. apply H. exact Hs.
  - left. rewrite (C _ _ K); [reflexivity|constructor|constructor].
  - apply in_rev in Hs. destruct (H s Hs) as [_ [O B]]. specialize (C _ _ K O B). destruct (sm_find (str "Encrypt") (s_trailer s)) as [v|] eqn:E.
    + right. exists s, v. auto.
    + left. exact C.
Qed.
(** After encryption was added to a document none of whose sections was encrypted, the saved document names the encryption dictionary. *)
Theorem C69_added : forall hd newest older r m, (forall s, In s (newest :: older) -> s_hybrid s = None /\ proper_trailer s) ->
  (forall s, In s (newest :: older) -> sm_find (str "Encrypt") (s_trailer s) = None) ->
  merge_chain hd (rev (encrypt_trailer r (newest :: older))) = Ok [m] -> sm_find (str "Encrypt") (s_trailer m) = Some r.
Proof.
  intros hd newest older r m H Hn M. cbn [encrypt_trailer] in M. set (n' := with_trailer (sm_insert (str "Encrypt") r (s_trailer newest)) newest) in *.
  destruct (H newest (or_introl eq_refl)) as [Hh [O B]].
  assert (F : sm_find (str "Encrypt") (s_trailer n') = Some r).
  { unfold n'. cbn [s_trailer with_trailer]. rewrite Proof.SMap.sm_find_insert by (assumption || apply enc_bytes). rewrite (Hn newest (or_introl eq_refl)).
    destruct (list_eq_dec N.eq_dec (str "Encrypt") (str "Encrypt")) as [_|X]; [reflexivity|contradiction]. }
  destruct (merged_encrypt hd n' older m) as [E|(s & v & Hs & _ & Fs & E)]; [|exact M|rewrite E; exact F|].
  - intros s [<-|Hs]; [|apply H; right; exact Hs]. split; [exact Hh|]. split; unfold n'; cbn [s_trailer with_trailer].
    + apply Proof.SMap.sm_insert_sorted. exact O.
    + apply Proof.SMap.sm_insert_keys_ok; [exact B|apply enc_bytes].
  - rewrite E. destruct Hs as [<-|Hs]; [congruence|]. rewrite (Hn s (or_intror Hs)) in Fs. discriminate.
Qed.
(** After encryption was removed the saved document has no encryption dictionary, if no older section that is a stream names one. *)
Theorem C69_removed_partial : forall hd newest older m, (forall s, In s (newest :: older) -> s_hybrid s = None /\ proper_trailer s) ->
  (forall s, In s older -> s_kind s = SStream -> sm_find (str "Encrypt") (s_trailer s) = None) ->
  merge_chain hd (rev (decrypt_trailer (newest :: older))) = Ok [m] -> sm_find (str "Encrypt") (s_trailer m) = None.
Proof.
  intros hd newest older m H Hn M. cbn [decrypt_trailer] in M. set (n' := with_trailer (sm_remove (str "Encrypt") (s_trailer newest)) newest) in *.
  destruct (H newest (or_introl eq_refl)) as [Hh [O B]].
  assert (F : sm_find (str "Encrypt") (s_trailer n') = None).
  { unfold n'. cbn [s_trailer with_trailer]. rewrite Proof.SMap.sm_find_remove by (assumption || apply enc_bytes).
    destruct (list_eq_dec N.eq_dec (str "Encrypt") (str "Encrypt")) as [_|X]; [reflexivity|contradiction]. }
  destruct (merged_encrypt hd n' older m) as [E|(s & v & Hs & Ks & Fs & E)]; [|exact M|rewrite E; exact F|].
  - intros s [<-|Hs]; [|apply H; right; exact Hs]. split; [exact Hh|]. split; unfold n'; cbn [s_trailer with_trailer].
    + apply Proof.SMap.sm_remove_sorted. exact O.
    + apply Proof.SMap.sm_remove_forall. exact B.
  - exfalso. destruct Hs as [<-|Hs]; [congruence|]. rewrite (Hn s Hs Ks) in Fs. discriminate.
Qed.
(** Otherwise the encryption stays in the saved document, for every document with updates whose first section is a stream that names it: the objects are
    written in the clear, but the document says they are enciphered. *)
Theorem C69_removed_refuted : forall hd newest middle oldest m v, s_kind oldest = SStream -> proper_trailer oldest ->
  sm_find (str "Encrypt") (s_trailer oldest) = Some v ->
  merge_chain hd (rev (decrypt_trailer (newest :: middle ++ [oldest]))) = Ok [m] -> sm_find (str "Encrypt") (s_trailer m) = Some v.
Proof.
  intros hd newest middle oldest m v Hk [Ho Hb] Hf H. cbn [decrypt_trailer rev] in H. rewrite rev_app_distr in H. cbn [rev app] in H.
  set (n' := with_trailer _ newest) in H.
  rewrite (Proof.Merge.merged_trailer hd (oldest :: rev middle ++ [n']) n' (oldest :: rev middle) m eq_refl H (s_trailer oldest) SStream).
  - rewrite Hf. reflexivity.
  - cbn [merged_kind]. rewrite Hk. reflexivity.
  - split; [exact Ho|split; [exact Hb|reflexivity]].
  - apply enc_bytes.
  - discriminate.
Qed.

(** printing and copying are asked for: P is -21, which permits everything else; AES was asked for and the dictionary says RC4; two sections *)
Definition c69_stream (n : N) (t : list (bytes * obj)) : section :=
  {| s_kind := SStream; s_entries := [{| xnum := n; xgen := 0; xdata := KUsed 17 true |}]; s_hybrid := None; s_trailer := t |}.
Definition c69_old : section := c69_stream 1 [(str "Encrypt", ORef 9 0); (str "Root", ORef 1 0)].
Definition c69_new : section := c69_stream 2 [(str "Encrypt", ORef 9 0); (str "Root", ORef 1 0)].
Lemma c69_proper : proper_trailer c69_old /\ proper_trailer c69_new.
Proof.
  assert (P : proper_trailer c69_old).
  { split; [repeat constructor; vm_compute; reflexivity|]. constructor; [apply Proof.StreamObj.str_bytes|]. constructor; [apply Proof.StreamObj.str_bytes|constructor]. }
  split; exact P.
Qed.
Example C69_case : permission_integer 20 = -21 /\ permits (-21) Modify /\ ~ permits (-21) Print /\ asked 20 Print /\
  (exists d key, add_encryption (requested (str "user") (str "owner") AAES 128 20) (str "0123456789abcdef") (List.repeat 7%N 16) = Ok (d, key) /\
    data_algorithm d (str "StmF") = Ok ARC4 /\ find_integer (str "P") d = Ok (-21)) /\
  (exists m, merge_chain (fun _ => []) (rev (decrypt_trailer [c69_new; c69_old])) = Ok [m] /\ sm_find (str "Encrypt") (s_trailer m) = Some (ORef 9 0)) /\
  (exists m, merge_chain (fun _ => []) (rev (decrypt_trailer [c69_new])) = Ok [m] /\ sm_find (str "Encrypt") (s_trailer m) = None) /\
  proper_trailer c69_old.
Proof.
  split; [reflexivity|]. split; [reflexivity|]. split; [discriminate|]. split; [discriminate|]. split; [eexists; eexists; split; [vm_compute; reflexivity|split; vm_compute; reflexivity]|].
  split; [eexists; split; [vm_compute; reflexivity|vm_compute; reflexivity]|]. split; [eexists; split; [vm_compute; reflexivity|vm_compute; reflexivity]|]. apply c69_proper.
Qed.

Print Assumptions C69_permissions_refuted.
Print Assumptions C69_none_refuted.
Print Assumptions C69_other_bits.
Print Assumptions C69_entries.
Print Assumptions C69_passwords.
Print Assumptions C69_algorithm_refuted.
Print Assumptions C69_no_algorithm.
Print Assumptions C69_added.
Print Assumptions C69_removed_partial.
Print Assumptions C69_removed_refuted.

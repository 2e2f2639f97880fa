(** Object equality (C14), hashes of equal objects (C13) and following references (C26). *)
From Coq Require Import List NArith ZArith Bool Lia String.
From Verif.Model Require Import Base Arith Equality Deref.
From Verif.Spec Require Import Equality Deref.
From Verif.Proof Require Import Tac Equality Deref.
Import ListNotations.

(** ** C14.  Full statement: [C14_equivalence_partial] for all values (without [plain] and [same_kinds]).  False, see below. *)
(** On values without references, and with numbers of one kind opposite each other, the comparison answers, and answers yes exactly
    when the values are the same. *)
Theorem C14_equals_is_same_value_partial :
  forall f a b, plain a -> plain b -> same_kinds a b ->
    exists r, equals f a b = Ok r /\ (r = true <-> same a b).
Proof. intros f a b Ha Hb Hk. apply (equals_decides f a b Ha Hb Hk). Qed.

Theorem C14_equivalence_partial :
  forall f a b c, plain a -> plain b -> plain c ->
    equals f a a = Ok true /\
    (same_kinds a b -> equals f a b = equals f b a) /\
    (same_kinds a b -> same_kinds b c -> equals f a b = Ok true -> equals f b c = Ok true -> equals f a c = Ok true).
Proof.
  intros f a b c Ha Hb Hc.
  assert (Hd : forall x y, plain x -> plain y -> same_kinds x y -> exists r, equals f x y = Ok r /\ (r = true <-> same x y))
    by (intros x y Hx Hy Hk; apply equals_decides; assumption).
  split; [|split].
  - pose proof (same_refl a Ha) as S. destruct (Hd a a Ha Ha (same_same_kinds _ _ S)) as (r & -> & Hr). f_equal. apply Hr, S.
  - intros Hk. destruct (Hd a b Ha Hb Hk) as (r & -> & Hr), (Hd b a Hb Ha (same_kinds_sym _ _ Hk)) as (r' & -> & Hr').
    f_equal. apply Bool.eq_true_iff_eq. rewrite Hr, Hr'. split; apply same_sym.
  - intros Hk Hk' E E'. destruct (Hd a b Ha Hb Hk) as (r & Er & Hr), (Hd b c Hb Hc Hk') as (r' & Er' & Hr').
    assert (S : same a c). { apply (same_trans a b c); [apply Hr|apply Hr']; congruence. }
    destruct (Hd a c Ha Hc (same_same_kinds _ _ S)) as (r'' & -> & Hr''). f_equal. apply Hr'', S.
Qed.

Definition half : dbl := {| dm := 3; de := -1 |}.       (* 1.5 *)
Definition tree (h : bool) (q : numeric) : value :=
  VDict [(str "A", VArr [VInt q; VReal (QReal half); VStr h (str "s")]); (str "B", VStream [(str "L", VNull)] (str "data"))].
Example C14_case :
  plain (tree true (QSigned 7)) /\ plain (tree false (QUnsigned 7)) /\ same_kinds (tree true (QSigned 7)) (tree false (QUnsigned 7)) /\
  equals [] (tree true (QSigned 7)) (tree false (QUnsigned 7)) = Ok true /\
  equals [] (tree true (QSigned 7)) (tree false (QUnsigned 8)) = Ok false.
Proof.
  split; [|split; [|split; [|vm_compute; auto]]].
  - repeat constructor; cbn; try lia.
  - repeat constructor; cbn; try lia; try discriminate.
  - cbn. tauto.
Qed.

(** An integer object equals a real that truncates to it, but not the other way round. *)
Theorem C14_symmetric_refuted :
  exists a b, equals [] a b = Ok true /\ equals [] b a = Ok false /\ plain a /\ plain b.
Proof.
  exists (VInt (QSigned 1)), (VReal (QReal half)). split; [vm_compute; reflexivity|]. split; [vm_compute; reflexivity|].
  split; constructor. lia.
Qed.
(** An integer equals two reals that differ. *)
Theorem C14_transitive_refuted :
  exists a b c, equals [] a b = Ok true /\ equals [] b c = Ok true /\ equals [] a c = Ok false /\ plain a /\ plain b /\ plain c.
Proof.
  exists (VReal (QReal {| dm := 1; de := 0 |})), (VInt (QSigned 1)), (VReal (QReal half)).
  split; [vm_compute; reflexivity|]. split; [vm_compute; reflexivity|]. split; [vm_compute; reflexivity|].
  split; [constructor|]. split; constructor. lia.
Qed.
(** An unsigned number from 2^63 - 1 on cannot even be compared with itself. *)
Theorem C14_reflexive_refuted :
  forall f z, (2 ^ 63 - 1 <= z < 2 ^ 64)%Z -> equals f (VInt (QUnsigned z)) (VInt (QUnsigned z)) = Throw EConversion.
Proof.
  intros f z Hz. cbn [equals]. unfold as_number. cbn [deref dereference rbind]. cbn [integer_value].
  assert (E : safe_convert int64_t uint64_t z = Throw EConversion).
  { unfold safe_convert, is_in_range. cbn [sgn bits int64_t uint64_t Bool.eqb].
    change (tmax int64_t) with (2 ^ 63 - 1)%Z. cif; [lia|reflexivity]. }
  rewrite E. reflexivity.
Qed.
(** An object equals a reference to it; the reference does not equal the object. *)
Theorem C14_reference_refuted :
  forall n g v, plain v -> exists f, equals f v (VRef n g) = Ok true /\ equals f (VRef n g) v = Ok false.
Proof.
  intros n g v Hv. exists [(n, g, v)].
  assert (D : deref [(n, g, v)] (VRef n g) = Ok v).
  { unfold deref. cbn [dereference length seen existsb find_indirect]. rewrite !N.eqb_refl. cbn [andb]. inversion Hv; reflexivity. }
  pose proof (same_refl v Hv) as S.
  destruct (equals_decides [(n, g, v)] v v Hv Hv (same_same_kinds _ _ S)) as (r & E & Hr).
  assert (r = true) by (apply Hr, S). subst r. split; [|inversion Hv; reflexivity].
  rewrite <- E. inversion Hv; subst; cbn [equals]; unfold as_number; rewrite D; unfold deref; cbn [dereference]; reflexivity.
Qed.

(** ** C13, first half.  Full statement: without [plain] and [same_kinds]. *)
Theorem C13_equal_objects_equal_hash_partial :
  forall hash_bool hash_long hash_ulong hash_double hash_char hash_num hash_gen,
    (forall z, (0 <= z)%Z -> hash_ulong z = hash_long z) ->
    (forall a b, same_real a b -> hash_double a = hash_double b) ->
    let hash := hash_value hash_bool hash_long hash_ulong hash_double hash_char hash_num hash_gen in
    forall f a b, plain a -> plain b -> same_kinds a b -> equals f a b = Ok true -> hash a = hash b.
Proof.
  intros hb hl hu hd hc hn hg Hu Hd hash f a b Ha Hb Hk E.
  destruct (equals_decides f a b Ha Hb Hk) as (r & E' & Hr).
  apply (same_hash hb hl hu hd hc hn hg Hu Hd a b Ha Hb). apply Hr. congruence.
Qed.
Example C13_equal_case :
  let hash := hash_value (fun b => if b then 1 else 0)%N (fun z => Z.to_N (z mod 2 ^ 64)) (fun z => Z.to_N (z mod 2 ^ 64))
                (fun _ => 5%N) (fun c => c) (fun n => n) (fun g => g) in
  hash (tree true (QSigned 7)) = hash (tree false (QUnsigned 7)) /\ hash (tree true (QSigned 7)) <> hash (tree true (QSigned 8)).
Proof. vm_compute. split; [reflexivity|discriminate]. Qed.

(** An integer and an equal real have different hashes whenever the two standard hash functions differ there (libstdc++ hashes
    integers to themselves and doubles by their bytes). *)
Theorem C13_integer_real_refuted :
  forall hash_bool hash_long hash_ulong hash_double hash_char hash_num hash_gen z,
    (0 < z < 2 ^ 52)%Z -> hash_long z <> hash_double (dbl_of_int z) ->
    let hash := hash_value hash_bool hash_long hash_ulong hash_double hash_char hash_num hash_gen in
    let a := VInt (QSigned z) in let b := VReal (QReal (dbl_of_int z)) in
    equals [] a b = Ok true /\ equals [] b a = Ok true /\ hash a <> hash b.
Proof.
  intros hb hl hu hd hc hn hg z Hz Hne hash a b.
  assert (Hl : (Z.log2 (Z.abs z) < 52)%Z) by (apply Z.log2_lt_pow2; lia).
  assert (E : dbl_of_int z = {| dm := z; de := 0 |}).
  { unfold dbl_of_int. destruct (Z.leb_spec (Z.log2 (Z.abs z) - 52) 0); [reflexivity|lia]. }
  split; [|split; [|exact Hne]]; subst a b; cbn [equals]; unfold as_number; cbn [deref dereference rbind integer_value real_value].
  - rewrite E. unfold dbl_to_big_int, int_le_dbl, dbl_le_int, dbl_trunc. cbn [dm de Z.leb Z.compare].
    change (2 ^ 0)%Z with 1%Z. rewrite Z.mul_1_r.
    destruct (Z.leb_spec (- 2 ^ 63) z); [|lia]. destruct (Z.leb_spec z (2 ^ 63)); [|lia]. cbn [andb].
    destruct (Z.eqb_spec z (2 ^ 63)); [lia|]. cbn [rbind]. rewrite Z.eqb_refl. reflexivity.
  - f_equal. apply same_real_eqb, same_real_refl.
Qed.
(** A reference and the object it refers to. *)
Theorem C13_reference_refuted :
  exists f a b, equals f a b = Ok true /\
    (let hash := hash_value (fun _ => 0%N) (fun z => Z.to_N z) (fun z => Z.to_N z) (fun _ => 0%N) (fun c => c) (fun n => n) (fun g => g) in
     hash a <> hash b).
Proof. exists [(3, 0, VName (str "N"))]%N, (VName (str "N")), (VRef 3 0). vm_compute. split; [reflexivity|discriminate]. Qed.

(** ** C26.  A chain of references that ends is followed to its end: whatever the caller's reference and those in the file remember,
    the query returns the object at the end. *)
Theorem C26_chain_followed :
  forall file user o, ends_at file user o ->
    exists enough, forall fuel s, (enough <= fuel)%nat -> exists s', query file user fuel s = Ret s' o.
Proof.
  intros file user o H. destruct (chain_ok file user user o H User eq_refl) as (_ & (F & HF)).
  exists F. intros fuel s Hf. apply (HF fuel s [] Hf). reflexivity.
Qed.
Definition chain_file (n : N) : iobj := match n with 1 => IRef 2 | 2 => IRef 3 | 3 => IOther 9 | 4 => IRef 1 | _ => INull end%N.
Example C26_chain_case : ends_at chain_file 4 (IOther 9) /\
  (exists s, query chain_file 4 20 fresh_state = Ret s (IOther 9)) /\ (exists s, query chain_file 8 20 fresh_state = Ret s INull).
Proof.
  split; [|vm_compute; eauto].
  apply (ends_later _ 4 1)%N; [reflexivity|]. apply (ends_later _ 1 2)%N; [reflexivity|]. apply (ends_later _ 2 3)%N; [reflexivity|].
  change (IOther 9) with (chain_file 3). constructor. discriminate.
Qed.

(** A chain that never ends, in a file with finitely many objects whose references were not followed yet, makes the query throw.
    Full statement: in every state.  That is false, [C26_second_query_refuted]. *)
Theorem C26_cycle_reported_partial :
  forall file user objs, (forall n m, file n = IRef m -> In n objs) -> (forall o, ~ ends_at file user o) ->
    forall fuel, (List.length objs + 4 <= fuel)%nat -> exists s, query file user fuel fresh_state = Exc s.
Proof.
  intros file user objs Hobjs Hne fuel Hf. unfold query.
  assert (H1 : get file user fuel fresh_state [] User <> Running).
  { apply (cycle_ends file user fuel fresh_state [] User objs Hobjs); try reflexivity; try constructor.
    - intros n [H|H]; discriminate.
    - intros n [].
    - cbn [length]. lia. }
  destruct (cycle_get file user fuel fresh_state [] User) as [H|H]; try reflexivity; try constructor; try assumption.
  - intros n [H|H]; discriminate.
  - contradiction.
Qed.
(** The same for the plain dereferencing function, in any file: it ends, with the end of the chain or with an exception exactly when
    there is none. *)
Theorem C26_dereference :
  forall f v,
    (exists w, deref f v = Ok w /\ leads_to f v w) \/ (deref f v = Throw EGeneral /\ forall w, ~ leads_to f v w).
Proof. exact deref_spec. Qed.

Definition self_file (n : N) : iobj := match n with 1 => IRef 1 | _ => INull end%N.
Lemma self_never_ends : forall o, ~ ends_at self_file 1 o.
Proof.
  intros o H. remember 1%N as n eqn:E. revert E. induction H as [n Hn|n m o E' H IH]; intros ->.
  - apply (Hn 1%N). reflexivity.
  - apply IH. cbn in E'. congruence.
Qed.
Example C26_cycle_case : exists s, query self_file 1 20 fresh_state = Exc s.
Proof.
  apply (C26_cycle_reported_partial self_file 1 [1%N]).
  - intros n m E. destruct (N.eq_dec n 1) as [->|Hne]; [left; reflexivity|]. exfalso. unfold self_file in E.
    destruct n as [|[p|p|]]; try discriminate. congruence.
  - exact self_never_ends.
  - cbn. lia.
Qed.

(** Asking a second time never returns: the file [1 0 obj 1 0 R endobj], the caller's reference 1 0 R. *)
Theorem C26_second_query_refuted :
  exists s, (exists f, query self_file 1 f fresh_state = Exc s) /\ forall fuel, query self_file 1 fuel s = Running.
Proof.
  eexists. split; [exists 20%nat; vm_compute; reflexivity|]. intros fuel. unfold query.
  destruct fuel as [|fuel]; [reflexivity|]. rewrite get_S. cbn [obind]. change (seen_number _ []) with false. cbv iota zeta.
  assert (Hr : forall s, active self_file 1 s User = true -> cached s (Obj 1) = false ->
             forall fuel, get self_file 1 fuel s [] (Obj 1) = Running).
  { intros s Ha Hc f0. destruct f0 as [|[|[|f0]]]; [reflexivity|rewrite get_S; reflexivity|rewrite get_S; cbn [obind]; change (seen_number _ []) with false; cbv iota zeta; rewrite get_ref_S, (fresh_init _ _ _ _ _ Hc) || idtac|].
    1: { reflexivity. }
    rewrite get_S. cbn [obind]. change (seen_number _ []) with false. cbv iota zeta.
    rewrite (fresh_ref _ _ _ _ _ Hc). cbn [obind]. change (self_file (tgt self_file 1 (Obj 1))) with (IRef 1). cbv iota.
    change (tgt self_file 1 (Obj 1)) with 1%N.
    apply self_runs; [reflexivity|]. unfold active in *. cbn [remember cached counted alive] in *.
    change (tgt self_file 1 (Obj 1)) with 1%N. change (tgt self_file 1 User) with 1%N in Ha.
    apply andb_true_iff in Ha. destruct Ha as (Ha1 & Ha2). apply andb_true_iff in Ha1. destruct Ha1 as (Ha0 & Ha1).
    rewrite Ha1, Ha2. reflexivity. }
  match goal with |- obind _ (get_ref _ _ _ ?s _) _ = _ => set (s0 := s) end.
  assert (HA : active self_file 1 s0 User = true) by reflexivity.
  assert (HC : cached s0 (Obj 1) = false) by reflexivity.
  assert (Hi : forall f, is_init self_file 1 f s0 User = Running).
  { intros [|f]; [reflexivity|]. rewrite is_init_S, HA. cbn [negb]. change (self_file (tgt self_file 1 User)) with (IRef 1). cbv iota.
    change (tgt self_file 1 User) with 1%N. rewrite (Hr s0 HA HC). reflexivity. }
  destruct fuel as [|fuel]; [reflexivity|]. rewrite get_ref_S, Hi. reflexivity.
Qed.

Print Assumptions C14_equals_is_same_value_partial.
Print Assumptions C14_equivalence_partial.
Print Assumptions C14_symmetric_refuted.
Print Assumptions C14_transitive_refuted.
Print Assumptions C14_reflexive_refuted.
Print Assumptions C14_reference_refuted.
Print Assumptions C13_equal_objects_equal_hash_partial.
Print Assumptions C13_integer_real_refuted.
Print Assumptions C13_reference_refuted.
Print Assumptions C26_chain_followed.
Print Assumptions C26_cycle_reported_partial.
Print Assumptions C26_dereference.
Print Assumptions C26_second_query_refuted.

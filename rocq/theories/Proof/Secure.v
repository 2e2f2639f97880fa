(** Proofs about Model/Secure.v *)
From Coq Require Import List NArith ZArith Bool Lia String.
From Coq Require Import List.
From Verif.Model Require Import Base SMap Object Arith Digest Encryption StreamBody Secure.
From Verif.Spec Require Import Encryption StreamBody Secure.
From Verif.Proof Require Import Tac Unreferenced Encryption StreamBody.
Import ListNotations.
Local Open Scope N_scope.

(** * RC4 *)

Lemma compute_rc4_inv : forall k b e, (0 < List.length k)%nat -> (List.length k <= 16)%nat -> compute_rc4 k b = Ok e -> e = rc4 k b /\ compute_rc4 k e = Ok b.
Proof.
  intros k b e H0 H1 H. unfold compute_rc4, rc4_n in *. apply rbind_ok in H. destruct H as (x & Hx & H). rewrite Hx. cbn [rbind].
  destruct (size_of k =? 0); [discriminate|]. destruct (size_of k <? size_of k); [discriminate|].
  apply rbind_ok in H. destruct H as (y & Hy & H). apply ok_inj in H. rewrite size_of_nat, firstn_all in *. split; [now subst e|].
  assert (Hs : size_of e = size_of b) by (subst e; unfold size_of; now rewrite rc4_length). rewrite Hs, Hy. cbn [rbind]. subst e. now rewrite rc4_twice.
Qed.

Section R.
Variables cbc_encrypt cbc_decrypt : bytes -> bytes -> bytes -> bytes.
Variable c : crypt.
Variables num gen : N.
Variable key : bytes.
Hypothesis rc4 : rc4_object c num gen key.

Lemma not_place : is_place c num gen = false.
Proof.
  destruct rc4 as (_ & _ & H & _). unfold is_place. destruct (c_place c) as [[n g]|]; [|reflexivity].
  destruct (n =? num) eqn:E1; [|reflexivity]. destruct (g =? gen) eqn:E2; [|reflexivity]. apply N.eqb_eq in E1, E2. now subst.
Qed.
Lemma not_zero : match c_place c with Some _ => num =? 0 | None => false end = false.
Proof. destruct rc4 as (_ & _ & _ & H & _). destruct (c_place c); [|reflexivity]. now apply N.eqb_neq. Qed.

Lemma encrypt_data_eq : forall iv b alg, alg <> AAES -> encrypt_data cbc_encrypt c iv b num gen alg = compute_rc4 (data_key key num gen false) b.
Proof.
  intros iv b alg Ha. unfold encrypt_data. rewrite (proj1 rc4). cbn [rbind]. rewrite not_place, not_zero. cbn [orb].
  assert (Haes : is_aes alg = false) by (destruct alg; [reflexivity|reflexivity|easy|reflexivity]). rewrite Haes, andb_false_r, object_key_standard, Haes. reflexivity.
Qed.
Lemma decrypt_data_eq : forall b alg, alg <> AAES ->
  decrypt_data cbc_decrypt c b num gen alg = if size_of b =? 0 then Ok [] else compute_rc4 (data_key key num gen false) b.
Proof.
  intros b alg Ha. unfold decrypt_data. destruct (size_of b =? 0); [reflexivity|]. rewrite not_place. pose proof rc4 as (Hk & Hc & _). rewrite Hc, Hk. cbn [rbind].
  assert (Haes : is_aes alg = false) by (destruct alg; [reflexivity|reflexivity|easy|reflexivity]). rewrite Haes, andb_false_r, object_key_standard, Haes. reflexivity.
Qed.
Lemma key_size : (0 < List.length (data_key key num gen false) <= 16)%nat.
Proof. assert (H := object_key_length key num gen ARC4). rewrite object_key_standard in H. cbn [is_aes] in H. rewrite H. lia. Qed.

Lemma data_undone : forall iv alg b e, alg <> AAES -> encrypt_data cbc_encrypt c iv b num gen alg = Ok e ->
  e = Digest.rc4 (data_key key num gen false) b /\ decrypt_data cbc_decrypt c e num gen alg = Ok b.
Proof.
  intros iv alg b e Ha H. rewrite encrypt_data_eq in H by exact Ha. destruct (compute_rc4_inv _ _ _ (proj1 key_size) (proj2 key_size) H) as (He & Hd).
  split; [exact He|]. rewrite decrypt_data_eq by exact Ha. destruct (size_of e =? 0) eqn:E0; [|exact Hd].
  apply N.eqb_eq in E0. assert (Hs : size_of e = size_of b) by (rewrite He; unfold size_of; now rewrite rc4_length).
  destruct b; [reflexivity|]. rewrite Hs in E0. unfold size_of in E0. cbn [List.length] in E0. lia.
Qed.
Lemma data_done : forall iv alg b, alg <> AAES -> short b ->
  encrypt_data cbc_encrypt c iv b num gen alg = Ok (Digest.rc4 (data_key key num gen false) b).
Proof.
  intros iv alg b Ha Hb. rewrite encrypt_data_eq by exact Ha. apply compute_rc4_ok; [apply key_size|apply key_size|]. unfold size_of, short in *. lia.
Qed.
Lemma data_opened : forall alg b, alg <> AAES -> short b ->
  decrypt_data cbc_decrypt c b num gen alg = Ok (Digest.rc4 (data_key key num gen false) b).
Proof.
  intros alg b Ha Hb. rewrite decrypt_data_eq by exact Ha. destruct (size_of b =? 0) eqn:E0.
  - destruct b; [|unfold size_of in E0; cbn [List.length] in E0; apply N.eqb_eq in E0; lia]. pose proof (rc4_length (data_key key num gen false) []) as H0.
    destruct (Digest.rc4 _ []); [reflexivity|discriminate].
  - apply compute_rc4_ok; [apply key_size|apply key_size|]. unfold size_of, short in *. lia.
Qed.

Lemma algorithm_known : forall which, which = str "StmF" \/ which = str "StrF" -> exists a, data_algorithm (c_dict c) which = Ok a /\ a <> AAES.
Proof.
  intros which Hw. destruct rc4 as (_ & _ & _ & _ & (a1 & H1) & (a2 & H2) & Hf).
  assert (Hn : forall a, data_algorithm (c_dict c) which = Ok a -> a <> AAES).
  { intros a H ->. unfold data_algorithm in H. apply rbind_ok in H. destruct H as (v & _ & H). destruct ((v =? 4) || (v =? 5))%Z; [|discriminate].
    apply rbind_ok in H. destruct H as (n & _ & H). exact (Hf n H). }
  destruct Hw; subst which; eauto.
Qed.
End R.

(** * Strings *)

Lemma map_dict : forall f l, map_strings f (ODict l) = do m <- map_entries f l;; Ok (ODict m).
Proof. reflexivity. Qed.
Definition entry_strings (l : dict) : list bytes := flat_map (fun kv => strings_of (snd kv)) l.

Lemma entries_undone_by : forall (f g : bytes -> res bytes) (h : bytes -> bytes) l,
  Forall (fun e => (forall s, In s (strings_of (snd e)) -> f s = Ok (h s) /\ g (h s) = Ok s) ->
    exists w, map_strings f (snd e) = Ok w /\ map_strings g w = Ok (snd e) /\ strings_of w = map h (strings_of (snd e))) l ->
  (forall s, In s (entry_strings l) -> f s = Ok (h s) /\ g (h s) = Ok s) ->
  exists m, map_entries f l = Ok m /\ map_entries g m = Ok l /\ entry_strings m = map h (entry_strings l).
Proof.
  intros f g h l IH H. unfold entry_strings in *. induction IH as [|[k x] l Hx _ IHl]; [exists []; auto|]. cbn [flat_map snd fst] in *.
  destruct Hx as (y & Y1 & Y2 & Y3); [intros s Hs; apply H; apply in_or_app; now left|].
  destruct IHl as (m & M1 & M2 & M3); [intros s Hs; apply H; apply in_or_app; now right|].
  exists ((k, y) :: m). cbn [map_entries fst snd]. rewrite Y1. cbn [rbind]. rewrite M1. cbn [rbind]. split; [reflexivity|]. split.
  - rewrite Y2. cbn [rbind]. rewrite M2. reflexivity.
  - cbn [flat_map snd]. now rewrite map_app, Y3, M3.
Qed.

Lemma strings_undone : forall (f g : bytes -> res bytes) (h : bytes -> bytes) o,
  (forall s, In s (strings_of o) -> f s = Ok (h s) /\ g (h s) = Ok s) ->
  exists w, map_strings f o = Ok w /\ map_strings g w = Ok o /\ strings_of w = map h (strings_of o).
Proof.
  intros f g h. induction o as [l IH|l IH|l d IH|o Ho] using obj_induction; intros H.
  - cbn [strings_of map_strings] in *.
    match goal with |- exists w, rbind (?F l) _ = _ /\ _ /\ _ =>
      match goal with |- exists w, _ /\ map_strings g w = _ /\ _ =>
      assert (exists m, F l = Ok m /\ map_strings g (OArr m) = Ok (OArr l) /\ flat_map strings_of m = map h (flat_map strings_of l)) as (m & E1 & E2 & E3) end end.
    { induction IH as [|x l Hx _ IHl]; [exists []; auto|]. cbn [flat_map] in H.
      destruct Hx as (y & Y1 & Y2 & Y3); [intros s Hs; apply H; apply in_or_app; now left|].
      destruct IHl as (m & M1 & M2 & M3); [intros s Hs; apply H; apply in_or_app; now right|].
      exists (y :: m). rewrite Y1. cbn [rbind]. rewrite M1. cbn [rbind]. split; [reflexivity|]. split.
      - cbn [map_strings] in *. rewrite Y2. cbn [rbind]. match goal with |- context [rbind (?F m) _] => destruct (F m); cbn [rbind] in *; congruence end.
      - cbn [flat_map]. now rewrite map_app, Y3, M3. }
    exists (OArr m). rewrite E1. cbn [rbind]. auto.
  - cbn [strings_of] in *. rewrite map_dict. destruct (entries_undone_by f g h l) as (m & E1 & E2 & E3); [exact IH|exact H|].
    exists (ODict m). rewrite E1. cbn [rbind]. rewrite map_dict, E2. auto.
  - exists (OStream l d). auto.
  - destruct o; try contradiction; try (eexists; split; [reflexivity|]; split; reflexivity).
    + destruct (H v) as (H1 & H2); [now left|]. exists (OLit (h v)). cbn [map_strings strings_of map]. rewrite H1. cbn [rbind]. rewrite H2. auto.
    + destruct (H v) as (H1 & H2); [now left|]. exists (OHex (h v)). cbn [map_strings strings_of map]. rewrite H1. cbn [rbind]. rewrite H2. auto.
Qed.

Lemma entries_undone : forall (f g : bytes -> res bytes) (h : bytes -> bytes) l,
  (forall s, In s (entry_strings l) -> f s = Ok (h s) /\ g (h s) = Ok s) ->
  exists m, map_entries f l = Ok m /\ map_entries g m = Ok l /\ entry_strings m = map h (entry_strings l).
Proof. intros f g h l H. apply entries_undone_by; [|exact H]. apply Forall_forall. intros e _. apply strings_undone. Qed.

Lemma shape : forall f o w, not_stream o -> map_strings f o = Ok w -> not_stream w.
Proof.
  intros f o w Ho H. destruct o; cbn [map_strings] in H; try contradiction; try (apply ok_inj in H; subst w; exact I).
  - apply rbind_ok in H. destruct H as (x & _ & H). apply ok_inj in H. subst w. exact I.
  - apply rbind_ok in H. destruct H as (x & _ & H). apply ok_inj in H. subst w. exact I.
  - apply rbind_ok in H. destruct H as (x & _ & H). apply ok_inj in H. subst w. exact I.
  - apply rbind_ok in H. destruct H as (x & _ & H). apply ok_inj in H. subst w. exact I.
Qed.

Lemma strings_same : forall f o, (forall s, In s (strings_of o) -> f s = Ok s) -> map_strings f o = Ok o.
Proof.
  intros f o H. destruct (strings_undone f Ok (fun s => s) o) as (w & E & E2 & _); [intros s Hs; split; [now apply H|reflexivity]|].
  rewrite E. clear - E2. revert o E2.
  assert (Hok : forall a, map_strings Ok a = Ok a).
  { clear. induction a as [l IH|l IH|l d IH|o Ho] using obj_induction; [| |reflexivity|destruct o; try contradiction; reflexivity].
    - cbn [map_strings]. match goal with |- rbind (?F l) _ = _ => assert (F l = Ok l) as E end; [|rewrite E; reflexivity].
      induction IH as [|x l Hx _ IHl]; [reflexivity|]. rewrite Hx. cbn [rbind]. rewrite IHl. reflexivity.
    - rewrite map_dict. assert (E : map_entries Ok l = Ok l); [|rewrite E; reflexivity].
      induction IH as [|[k x] l Hx _ IHl]; [reflexivity|]. cbn [map_entries fst snd] in *. rewrite Hx. cbn [rbind]. rewrite IHl. reflexivity. }
  intros o E. rewrite Hok in E. congruence.
Qed.
Lemma entries_same : forall f l, (forall s, In s (entry_strings l) -> f s = Ok s) -> map_entries f l = Ok l.
Proof.
  intros f l H. assert (E : map_strings f (ODict l) = Ok (ODict l)) by (apply strings_same; exact H). rewrite map_dict in E.
  apply rbind_ok in E. destruct E as (m & E & E2). congruence.
Qed.

(** the number of strings stays *)
Lemma strings_count : forall f o w, map_strings f o = Ok w -> List.length (strings_of w) = List.length (strings_of o).
Proof.
  intros f. induction o as [l IH|l IH|l d IH|o Ho] using obj_induction; intros w H.
  - cbn [map_strings] in H. apply rbind_ok in H. destruct H as (m & E & H). apply ok_inj in H. subst w. cbn [strings_of].
    revert m E. induction IH as [|x l Hx _ IHl]; intros m E; [apply ok_inj in E; now subst m|].
    apply rbind_ok in E. destruct E as (y & Ey & E). apply rbind_ok in E. destruct E as (u & Eu & E). apply ok_inj in E. subst m.
    cbn [flat_map]. rewrite !app_length, (Hx _ Ey), (IHl _ Eu). reflexivity.
  - rewrite map_dict in H. apply rbind_ok in H. destruct H as (m & E & H). apply ok_inj in H. subst w. cbn [strings_of].
    revert m E. induction IH as [|x l Hx _ IHl]; intros m E; [apply ok_inj in E; now subst m|]. cbn [map_entries] in E.
    apply rbind_ok in E. destruct E as (y & Ey & E). apply rbind_ok in E. destruct E as (u & Eu & E). apply ok_inj in E. subst m.
    cbn [flat_map snd]. rewrite !app_length, (Hx _ Ey), (IHl _ Eu). reflexivity.
  - cbn [map_strings] in H. apply ok_inj in H. now subst w.
  - destruct o; try contradiction; cbn [map_strings] in H; try (apply ok_inj in H; now subst w).
    + apply rbind_ok in H. destruct H as (x & _ & H). apply ok_inj in H. now subst w.
    + apply rbind_ok in H. destruct H as (x & _ & H). apply ok_inj in H. now subst w.
Qed.
Lemma entries_count : forall f l m, map_entries f l = Ok m -> List.length (entry_strings m) = List.length (entry_strings l).
Proof. intros f l m H. apply (strings_count f (ODict l) (ODict m)). rewrite map_dict, H. reflexivity. Qed.

(** an operation that never succeeds leaves nothing when there is a string *)
Lemma strings_none : forall f o w, (forall s x, f s <> Ok x) -> map_strings f o = Ok w -> strings_of o = [].
Proof.
  intros f o w Hf. revert w. induction o as [l IH|l IH|l d IH|o Ho] using obj_induction; intros w H.
  - cbn [map_strings] in H. apply rbind_ok in H. destruct H as (m & E & _). cbn [strings_of].
    revert m E. induction IH as [|x l Hx _ IHl]; intros m E; [reflexivity|].
    apply rbind_ok in E. destruct E as (y & Ey & E). apply rbind_ok in E. destruct E as (u & Eu & _). cbn [flat_map]. rewrite (Hx _ Ey), (IHl _ Eu). reflexivity.
  - rewrite map_dict in H. apply rbind_ok in H. destruct H as (m & E & _). cbn [strings_of].
    revert m E. induction IH as [|x l Hx _ IHl]; intros m E; [reflexivity|]. cbn [map_entries] in E.
    apply rbind_ok in E. destruct E as (y & Ey & E). apply rbind_ok in E. destruct E as (u & Eu & _). cbn [flat_map]. rewrite (Hx _ Ey), (IHl _ Eu). reflexivity.
  - reflexivity.
  - destruct o; try contradiction; try reflexivity; cbn [map_strings] in H; apply rbind_ok in H; destruct H as (x & E & _); exfalso; exact (Hf _ _ E).
Qed.
Lemma entries_none : forall f l m, (forall s x, f s <> Ok x) -> map_entries f l = Ok m -> entry_strings l = [].
Proof. intros f l m Hf H. apply (strings_none f (ODict l) (ODict m) Hf). rewrite map_dict, H. reflexivity. Qed.

(** what has no strings stays *)
Lemma find_entries : forall f k l m, map_entries f l = Ok m ->
  match sm_find k l with
  | Some o => exists o', map_strings f o = Ok o' /\ sm_find k m = Some o'
  | None => sm_find k m = None
  end.
Proof.
  intros f k. induction l as [|[k' x] l IH]; intros m E.
  - apply ok_inj in E. subst m. reflexivity.
  - cbn [map_entries fst snd] in E. apply rbind_ok in E. destruct E as (y & Ey & E). apply rbind_ok in E. destruct E as (u & Eu & E). apply ok_inj in E. subst m.
    cbn [sm_find]. destruct (buffer_ltb k k'); [reflexivity|]. destruct (buffer_ltb k' k); [now apply IH|]. eauto.
Qed.
Lemma names_stay : forall f ns, map_strings f (OArr (map OName ns)) = Ok (OArr (map OName ns)).
Proof. intros f ns. apply strings_same. intros s Hs. exfalso. cbn [strings_of] in Hs. induction ns as [|n ns IH]; [exact Hs|]. cbn in Hs. exact (IH Hs). Qed.
Lemma filters_stay : forall f l m ns, map_entries f l = Ok m -> filter_list l ns -> filter_list m ns.
Proof.
  intros f l m ns E H. pose proof (find_entries f (str "Filter") l m E) as F. destruct H as [d Hf|d Hf|d n Hf|d ns Hf]; rewrite Hf in F.
  - now apply fl_none.
  - destruct F as (o & E1 & E2). apply ok_inj in E1. subst o. now apply fl_null.
  - destruct F as (o & E1 & E2). apply ok_inj in E1. subst o. now apply fl_name.
  - destruct F as (o & E1 & E2). rewrite names_stay in E1. apply ok_inj in E1. subst o. now apply fl_array.
Qed.
Lemma no_predictor_stays : forall f p q, map_entries f p = Ok q -> no_predictor p -> no_predictor q.
Proof.
  intros f p q E H. pose proof (find_entries f (str "Predictor") p q E) as F. destruct H as [H|H]; rewrite H in F; [now left|].
  destruct F as (o & E1 & E2). apply ok_inj in E1. subst o. now right.
Qed.
Lemma parameters_stay : forall f l m n, map_entries f l = Ok m -> plain_parameters l n -> plain_parameters m n.
Proof.
  intros f l m n E H. pose proof (find_entries f (str "DecodeParms") l m E) as F. destruct H as [H|[(p & H & Hp)|(ps & H & Hn & Hp)]]; rewrite H in F.
  - now left.
  - destruct F as (o & E1 & E2). rewrite map_dict in E1. apply rbind_ok in E1. destruct E1 as (q & Eq & E1). apply ok_inj in E1. subst o.
    right. left. exists q. split; [exact E2|]. now apply (no_predictor_stays f p q).
  - destruct F as (o & E1 & E2). cbn [map_strings] in E1. apply rbind_ok in E1. destruct E1 as (qs & Eq & E1). apply ok_inj in E1. subst o.
    right. right. exists qs. split; [exact E2|]. clear - Eq Hn Hp. 
    assert (G : List.length qs = List.length ps /\ Forall plain_parameter qs); [|destruct G as (G1 & G2); rewrite G1; now split].
    clear Hn. revert qs Eq. induction Hp as [|x ps Hx _ IH]; intros qs Eq; [apply ok_inj in Eq; subst qs; split; [reflexivity|constructor]|].
    apply rbind_ok in Eq. destruct Eq as (y & Ey & Eq). apply rbind_ok in Eq. destruct Eq as (u & Eu & Eq). apply ok_inj in Eq. subst qs.
    destruct (IH u Eu) as (G1 & G2). split; [cbn; now rewrite G1|]. constructor; [|exact G2].
    destruct Hx as [->|(d & -> & Hd)]; [apply ok_inj in Ey; subst y; now left|]. rewrite map_dict in Ey. apply rbind_ok in Ey. destruct Ey as (q & Eq' & Ey).
    apply ok_inj in Ey. subst y. right. exists q. split; [reflexivity|]. now apply (no_predictor_stays f d q).
Qed.

(** * Saving and copying *)

Section S.
Variables deflate inflate : bytes -> res bytes.
Variables dct_encode dct_decode jpx_decode : dict -> bytes -> res bytes.
Variables cbc_encrypt cbc_decrypt : bytes -> bytes -> bytes -> bytes.
Notation open_ := (open_object cbc_decrypt).
Notation write_ := (write_object deflate inflate dct_encode dct_decode jpx_decode cbc_encrypt cbc_decrypt).
Notation shown_ := (shown inflate dct_decode jpx_decode cbc_decrypt).
Notation save_ := (save_object deflate inflate dct_encode dct_decode jpx_decode cbc_encrypt cbc_decrypt).
Notation copy_ := (copy_object deflate inflate dct_encode dct_decode jpx_decode cbc_encrypt cbc_decrypt).
Notation body_ f num gen := (get_body inflate dct_decode jpx_decode (open_data cbc_decrypt f num gen) (secured f)).
Notation plain_ f num gen := (get_decrypted (open_data cbc_decrypt f num gen) (secured f)).

Lemma data_cipher : forall f num gen, ordinary f num gen -> forall h, undoes (close_data cbc_encrypt f num gen h) (open_data cbc_decrypt f num gen h).
Proof.
  intros f num gen Ho h b e H. unfold ordinary, close_data, open_data in *. destruct (v_crypt f) as [c|]; [|congruence]. destruct Ho as (key & Ho). destruct h as [name|].
  - apply rbind_ok in H. destruct H as (a & Ea & H). rewrite Ea. cbn [rbind].
    eapply data_undone; [exact Ho| |exact H]. intros ->. destruct Ho as (_ & _ & _ & _ & _ & _ & Ho). exact (Ho _ Ea).
  - destruct (algorithm_known c num gen key Ho (str "StmF")) as (a & Ea & Ha); [now left|].
    unfold encrypt_stream, encrypt_with, decrypt_stream, decrypt_with in *. rewrite Ea in *. cbn [rbind] in *. eapply data_undone; [exact Ho|exact Ha|exact H].
Qed.

Lemma string_kept : forall f num gen ex, ordinary f num gen -> exists h, forall v, Forall short v ->
  (forall s, In s v -> close_string cbc_encrypt f (Some (num, gen)) ex s = Ok (h s) /\ open_string cbc_decrypt f num gen ex (h s) = Ok s) /\
  kept_as f num gen ex v (map h v).
Proof.
  intros f num gen ex Ho. unfold ordinary, close_string, open_string, kept_as in *. destruct (v_crypt f) as [c|]; [|exists (fun s => s); intros v _; rewrite map_id; auto].
  destruct ex; [exists (fun s => s); intros v _; rewrite map_id; auto|].
  destruct Ho as (key & Ho). destruct (algorithm_known c num gen key Ho (str "StrF")) as (a & Ea & Ha); [now right|].
  unfold encrypt_string, decrypt_string, encrypt_with, decrypt_with. rewrite Ea. cbn [rbind]. exists (rc4 (data_key key num gen false)). intros v Hv. split.
  - intros s Hs. rewrite Forall_forall in Hv. assert (E : encrypt_data cbc_encrypt c (v_random f num gen) s num gen a = Ok (rc4 (data_key key num gen false) s)) by (eapply data_done; eauto).
    split; [exact E|]. eapply data_undone; [exact Ho|exact Ha|exact E].
  - intros k Hk. destruct Ho as (Hk' & _). congruence.
Qed.

Lemma object_kept : forall f num gen ex v, ordinary f num gen -> Forall short (strings_of v) -> not_stream v ->
  exists w, write_ f num gen (HObject ex v) = Ok w /\ shown_ f num gen ex w = Ok v /\ kept_as f num gen ex (strings_of v) (strings_of w).
Proof.
  intros f num gen ex v Ho Hs Hn. destruct (string_kept f num gen ex Ho) as (h & Hh). destruct (Hh _ Hs) as (H1 & H2).
  destruct (strings_undone _ _ h v H1) as (w & E1 & E2 & E3). exists w. cbn [write_object]. split; [exact E1|]. rewrite E3. split; [|exact H2].
  unfold shown. pose proof (shape _ _ _ Hn E1) as Hw. unfold open_object. destruct w; try contradiction; rewrite E2; reflexivity.
Qed.

Lemma open_not_stream : forall f num gen ex o v, not_stream o -> shown_ f num gen ex o = Ok v -> open_ f num gen ex o = Ok (HObject ex v) /\ not_stream v.
Proof.
  intros f num gen ex o v Ho H. unfold shown in H. apply rbind_ok in H. destruct H as (m & Em & H). unfold open_object in Em.
  assert (E : exists x, map_strings (open_string cbc_decrypt f num gen ex) o = Ok x /\ m = HObject ex x).
  { destruct o; try contradiction; apply rbind_ok in Em; destruct Em as (x & Ex & Em); apply ok_inj in Em; eauto. }
  destruct E as (x & Ex & ->). apply ok_inj in H. subst x. split; [|eapply shape; eauto].
  unfold open_object. destruct o; try contradiction; rewrite Ex; reflexivity.
Qed.

Lemma save_strings : forall from to num gen num' gen' ex touched o v, not_stream o -> shown_ from num gen ex o = Ok v ->
  ordinary to num' gen' -> Forall short (strings_of v) ->
  exists w, save_ from to num gen num' gen' ex touched o = Ok w /\ shown_ to num' gen' ex w = Ok v /\
    kept_as to num' gen' ex (strings_of v) (strings_of w).
Proof.
  intros from to num gen num' gen' ex touched o v Ho Hs Ht Hl. destruct (open_not_stream _ _ _ _ _ _ Ho Hs) as (E & Hn).
  destruct (object_kept to num' gen' ex v Ht Hl Hn) as (w & E1 & E2 & E3). exists w. unfold save_object. rewrite E. cbn [rbind].
  split; [|now split]. destruct touched; exact E1.
Qed.
Lemma copy_strings : forall from to num gen num' gen' ex touched o v, not_stream o -> shown_ from num gen ex o = Ok v ->
  ordinary to num' gen' -> Forall short (strings_of v) ->
  exists w, copy_ from to num gen num' gen' ex touched o = Ok w /\ shown_ to num' gen' ex w = Ok v /\
    kept_as to num' gen' ex (strings_of v) (strings_of w).
Proof.
  intros from to num gen num' gen' ex touched o v Ho Hs Ht Hl. destruct (open_not_stream _ _ _ _ _ _ Ho Hs) as (E & Hn).
  destruct (object_kept to num' gen' ex v Ht Hl Hn) as (w & E1 & E2 & E3). exists w. unfold copy_object. rewrite E. cbn [rbind].
  split; [|now split]. destruct touched; exact E1.
Qed.

(** headers of cloned streams *)
Lemma header_written : forall f num gen ex h w, map_entries (close_string cbc_encrypt f None false) h = Ok w ->
  (v_crypt f = None \/ entry_strings h = []) /\ w = h /\ map_entries (open_string cbc_decrypt f num gen ex) h = Ok h.
Proof.
  intros f num gen ex h w H. assert (Hc : v_crypt f = None \/ entry_strings h = []).
  { unfold close_string in H. destruct (v_crypt f); [right|now left]. eapply entries_none; [|exact H]. intros s x Hx. discriminate. }
  split; [exact Hc|]. split.
  - assert (E : map_entries (close_string cbc_encrypt f None false) h = Ok h).
    { apply entries_same. intros s Hs. destruct Hc as [Hc|Hc]; [unfold close_string; now rewrite Hc|]. rewrite Hc in Hs. destruct Hs. }
    congruence.
  - apply entries_same. intros s Hs. destruct Hc as [Hc|Hc]; [unfold open_string; now rewrite Hc|]. rewrite Hc in Hs. destruct Hs.
Qed.

Lemma body_decrypted : forall f num gen h ex d b, body_ f num gen (loaded h ex d) = Ok b -> exists x, plain_ f num gen (loaded h ex d) = Ok x.
Proof.
  intros f num gen h ex d b H. unfold get_body in H. cbn [loaded decoded header] in H. fold (loaded h ex d) in H.
  destruct (sm_contains (str "Filter") h); cbn [negb] in H; [|eauto].
  apply rbind_ok in H. destruct H as (fl & _ & H). destruct fl; try discriminate; try eauto.
  - destruct (beq n (str "Crypt")); [eauto|]. apply rbind_ok in H. destruct H as (x1 & _ & H). apply rbind_ok in H. destruct H as (x2 & _ & H).
    apply rbind_ok in H. destruct H as (x3 & E & _). eauto.
  - destruct (names_of l); [|discriminate]. apply rbind_ok in H. destruct H as (x2 & _ & H). apply rbind_ok in H. destruct H as (x3 & E & _). eauto.
Qed.
Lemma same_body : forall f f' n g n' g' h ex a b, plain_ f n g (loaded h ex a) = plain_ f' n' g' (loaded h ex b) ->
  body_ f n g (loaded h ex a) = body_ f' n' g' (loaded h ex b).
Proof. intros f f' n g n' g' h ex a b H. unfold get_body. cbn [loaded decoded header]. unfold loaded in H. unfold loaded. rewrite H. reflexivity. Qed.

(** what a stream that was read keeps *)
Lemma read_keeps : forall f n g h ex d s, read_body inflate dct_decode jpx_decode (open_data cbc_decrypt f n g) (secured f) (loaded h ex d) = Ok s ->
  exists b x, body_ f n g (loaded h ex d) = Ok b /\ plain_ f n g (loaded h ex d) = Ok x /\ header s = h /\ raw s = d /\ dirty s = false /\ exempt s = ex /\
    decrypted s = Some x /\ (sm_find (str "Filter") h <> Some ONull -> decoded s = Some b).
Proof.
  intros f n g h ex d s H. unfold read_body in H. apply rbind_ok in H. destruct H as (b & Eb & H). apply ok_inj in H.
  destruct (body_decrypted f n g h ex d b Eb) as (x & Ex). exists b, x. rewrite Ex in H. cbn [loaded decrypted decoded header raw dirty exempt] in H.
  split; [exact Eb|]. split; [exact Ex|]. subst s. cbn [decrypted decoded header raw dirty exempt]. repeat (split; [reflexivity|]).
  intros Hn. destruct (sm_find (str "Filter") h) as [o|]; [|reflexivity]. destruct o; try reflexivity. now elim Hn.
Qed.

Lemma save_streams : forall from to num gen num' gen' ex touched h d ns w,
  filter_list h ns -> ~ In (str "Crypt") ns -> ordinary to num' gen' -> notes_removal from to ->
  touched = true \/ (v_crypt from = v_crypt to /\ num = num' /\ gen = gen') ->
  save_ from to num gen num' gen' ex touched (OStream h d) = Ok w ->
  shown_ to num' gen' ex w = shown_ from num gen ex (OStream h d).
Proof.
  intros from to num gen num' gen' ex touched h d ns w Hf Hc Ht Hn Hs H.
  unfold save_object in H. apply rbind_ok in H. destruct H as (m & Em & H). apply rbind_ok in H. destruct H as (m' & Em' & H).
  unfold shown at 2. rewrite Em. cbn [open_object rbind] in Em |- *. apply rbind_ok in Em. destruct Em as (v & Ev & Em). apply ok_inj in Em. subst m.
  pose proof (filters_stay _ _ _ _ Ev Hf) as Hfv. cbn [loaded header].
  assert (Hk : exists s, m' = HStream true false s /\ header s = v /\ raw s = d /\ dirty s = false /\ exempt s = ex /\
    (exists x, plain_ from num gen (loaded v ex d) = Ok x /\ decrypted s = Some x \/ decrypted s = None /\ v_crypt from = v_crypt to /\ num = num' /\ gen = gen')).
  { destruct touched.
    - cbn [touch_object] in Em'. apply rbind_ok in Em'. destruct Em' as (s & Es & Em'). apply ok_inj in Em'. subst m'.
      destruct (read_keeps _ _ _ _ _ _ _ Es) as (b & x & _ & Ex & H1 & H2 & H3 & H4 & H5 & _). exists s. repeat (split; [first [reflexivity|assumption]|]). exists x. left. now split.
    - apply ok_inj in Em'. subst m'. exists (loaded v ex d). repeat (split; [reflexivity|]). exists []. right. split; [reflexivity|]. destruct Hs as [Hs|Hs]; [discriminate|exact Hs]. }
  destruct Hk as (s & -> & Hh & Hr & Hd & Hx & Hdec). cbn [clone_object write_object andb orb] in H. rewrite Hh in H.
  apply rbind_ok in H. destruct H as (hw & Ehw & H). apply rbind_ok in H. destruct H as (e & Ee & H). apply ok_inj in H. subst w.
  destruct (header_written to num' gen' ex v hw Ehw) as (_ & -> & Eo). unfold shown. cbn [open_object]. rewrite Eo. cbn [rbind loaded header]. fold (loaded v ex e). fold (loaded v ex d).
  assert (G : body_ to num' gen' (loaded v ex e) = body_ from num gen (loaded v ex d)); [|rewrite G; reflexivity].
  apply same_body. rewrite (decrypted_plain _ _ v ns ex e Hfv Hc).
  assert (Hsame : plain_ to num' gen' s = plain_ from num gen (loaded v ex d)).
  { destruct Hdec as (x & [(E1 & E2)|(E0 & E1 & E2 & E3)]).
    - unfold get_decrypted. rewrite E2. now rewrite <- E1.
    - unfold get_decrypted. rewrite E0, Hx, Hh, Hr. cbn [loaded decrypted exempt header raw]. subst. unfold secured, open_data. rewrite E1. reflexivity. }
  unfold get_encoded in Ee. rewrite Hd in Ee. cbn [negb orb] in Ee. rewrite andb_true_r in Ee.
  destruct (negb (secured to) && negb (v_dirty to)) eqn:E0.
  - apply ok_inj in Ee. rewrite Hr in Ee. subst e. apply andb_true_iff in E0. destruct E0 as (E1 & E2). rewrite E1, orb_true_r.
    rewrite (decrypted_plain _ _ v ns ex d Hfv Hc).
    assert (v_crypt from = None).
    { destruct (v_crypt from) eqn:Ec; [|reflexivity]. exfalso. assert (Hto : v_crypt to = None) by (unfold secured in E1; destruct (v_crypt to); [discriminate|reflexivity]).
      assert (Hv : v_dirty to = true) by (apply Hn; congruence). rewrite Hv in E2. discriminate. }
    unfold secured. rewrite H. cbn [negb]. now rewrite orb_true_r.
  - apply rbind_ok in Ee. destruct Ee as (x & Ex & Ee). rewrite Hsame in Ex. rewrite Ex. unfold encrypt_body in Ee. rewrite Hx in Ee.
    destruct (ex || negb (secured to)); [congruence|]. now apply data_cipher in Ee.
Qed.

Lemma save_streams_total : forall from to num gen num' gen' ex touched h d ns v,
  filter_list h ns -> ~ In (str "Crypt") ns -> strings_of (ODict h) = [] -> short d -> ordinary from num gen -> ordinary to num' gen' ->
  shown_ from num gen ex (OStream h d) = Ok v ->
  exists w, save_ from to num gen num' gen' ex touched (OStream h d) = Ok w.
Proof.
  intros from to num gen num' gen' ex touched h d ns v0 Hf Hc Hst Hl Hfrom Ht Hv.
  unfold shown in Hv. apply rbind_ok in Hv. destruct Hv as (m & Em & Hv). unfold save_object. rewrite Em. cbn [rbind].
  cbn [open_object] in Em. apply rbind_ok in Em. destruct Em as (v & Ev & Em). apply ok_inj in Em. subst m. cbn iota beta in Hv. apply rbind_ok in Hv. destruct Hv as (b & Eb & _).
  pose proof (filters_stay _ _ _ _ Ev Hf) as Hfv.
  assert (Hsv : entry_strings v = []).
  { assert (Hl0 := entries_count _ _ _ Ev). change (strings_of (ODict h)) with (entry_strings h) in Hst. rewrite Hst in Hl0. destruct (entry_strings v); [reflexivity|discriminate]. }
  assert (Hopen : forall f n g x, ordinary f n g -> short x -> exists y, open_data cbc_decrypt f n g None x = Ok y /\ short y).
  { clear. intros f n g x Ho Hx. unfold ordinary, open_data in *. destruct (v_crypt f) as [c|]; [|eauto]. destruct Ho as (key & Ho).
    destruct (algorithm_known c n g key Ho (str "StmF")) as (a & Ea & Ha); [now left|]. unfold decrypt_stream, decrypt_with. rewrite Ea. cbn [rbind].
    erewrite data_opened by eassumption. eexists. split; [reflexivity|]. unfold short in *. rewrite rc4_length. exact Hx. }
  assert (Hclose : forall f n g x, ordinary f n g -> short x -> exists y, close_data cbc_encrypt f n g None x = Ok y).
  { clear. intros f n g x Ho Hx. unfold ordinary, close_data in *. destruct (v_crypt f) as [c|]; [|eauto]. destruct Ho as (key & Ho).
    destruct (algorithm_known c n g key Ho (str "StmF")) as (a & Ea & Ha); [now left|]. unfold encrypt_stream, encrypt_with. rewrite Ea. cbn [rbind].
    erewrite data_done by eassumption. eauto. }
  assert (Hk : exists s, (if touched then touch_object inflate dct_decode jpx_decode cbc_decrypt from num gen (HStream true false (loaded v ex d)) else Ok (HStream true false (loaded v ex d))) = Ok (HStream true false s) /\
    header s = v /\ raw s = d /\ dirty s = false /\ exempt s = ex /\ (exists x, plain_ to num' gen' s = Ok x /\ short x)).
  { destruct touched.
    - cbn [touch_object]. assert (Er : exists s, read_body inflate dct_decode jpx_decode (open_data cbc_decrypt from num gen) (secured from) (loaded v ex d) = Ok s) by (unfold read_body; rewrite Eb; cbn [rbind]; eauto).
      destruct Er as (s & Es). rewrite Es. cbn [rbind]. exists s. destruct (read_keeps _ _ _ _ _ _ _ Es) as (b' & x & _ & Ex & H1 & H2 & H3 & H4 & H5 & _).
      repeat (split; [first [reflexivity|assumption]|]). exists x. unfold get_decrypted at 1. rewrite H5. split; [reflexivity|].
      rewrite (decrypted_plain _ _ v ns ex d Hfv Hc) in Ex. destruct (ex || negb (secured from)); [apply ok_inj in Ex; now subst x|]. destruct (Hopen from num gen d Hfrom Hl) as (y & Ey & Hy). assert (x = y) by congruence. now subst y.
    - exists (loaded v ex d). repeat (split; [reflexivity|]). rewrite (decrypted_plain _ _ v ns ex d Hfv Hc). destruct (ex || negb (secured to)); eauto. }
  destruct Hk as (s & -> & Hh & Hr & Hd & Hx & x & Ex & Hsx). cbn [rbind clone_object write_object andb orb]. rewrite Hh.
  rewrite (entries_same _ v) by (intros s0 Hs0; rewrite Hsv in Hs0; destruct Hs0). cbn [rbind].
  assert (He : exists e, get_encoded deflate inflate dct_encode dct_decode jpx_decode (close_data cbc_encrypt to num' gen') (open_data cbc_decrypt to num' gen') (secured to) (v_dirty to) s = Ok e).
  { unfold get_encoded. rewrite Hd. cbn [negb orb]. rewrite andb_true_r. destruct (negb (secured to) && negb (v_dirty to)); [eauto|]. rewrite Ex. cbn [rbind].
    unfold encrypt_body. rewrite Hx. destruct (ex || negb (secured to)); [eauto|]. now apply Hclose. }
  destruct He as (e & ->). cbn [rbind]. eauto.
Qed.

Lemma copy_streams : forall from to num gen num' gen' h d ns w, undoes deflate inflate ->
  filter_list h ns -> sm_find (str "Filter") h <> Some ONull -> ~ In (str "DCTDecode") ns -> plain_parameters h (List.length ns) ->
  (is_array h -> v_crypt to = None) -> ordinary to num' gen' ->
  copy_ from to num gen num' gen' false true (OStream h d) = Ok w ->
  shown_ to num' gen' false w = shown_ from num gen false (OStream h d).
Proof.
  intros from to num gen num' gen' h d ns w Hz Hf Hnull Hdct Hpar Harr Ht H.
  unfold copy_object in H. apply rbind_ok in H. destruct H as (m & Em & H). apply rbind_ok in H. destruct H as (m' & Em' & H).
  unfold shown at 2. rewrite Em. cbn [open_object rbind] in Em |- *. apply rbind_ok in Em. destruct Em as (v & Ev & Em). apply ok_inj in Em. subst m.
  pose proof (filters_stay _ _ _ _ Ev Hf) as Hfv. pose proof (parameters_stay _ _ _ _ Ev Hpar) as Hpv. cbn [loaded header].
  cbn [touch_object] in Em'. apply rbind_ok in Em'. destruct Em' as (s & Es & Em'). apply ok_inj in Em'. subst m'.
  destruct (read_keeps _ _ _ _ _ _ _ Es) as (b & x & Eb & Ex & H1 & H2 & H3 & H4 & H5 & H6).
  pose proof (find_entries _ (str "Filter") _ _ Ev) as Hff.
  assert (Hdec : decoded s = Some b).
  { apply H6. intros Hq. rewrite Hq in Hff. destruct (sm_find (str "Filter") h) as [o|]; [|discriminate]. destruct Hff as (o' & E1 & E2). injection E2 as <-.
    apply Hnull. f_equal. clear - E1. destruct o; cbn [map_strings] in E1; try (apply ok_inj in E1; congruence); apply rbind_ok in E1; destruct E1 as (y & _ & E1); discriminate. }
  cbn [clone_object dirty_object write_object andb orb header] in H. rewrite H1 in H.
  apply rbind_ok in H. destruct H as (hw & Ehw & H). apply rbind_ok in H. destruct H as (e & Ee & H). apply ok_inj in H. subst w.
  destruct (header_written to num' gen' false v hw Ehw) as (_ & -> & Eo). unfold shown. cbn [open_object]. rewrite Eo. cbn [rbind loaded header]. fold (loaded v false e). fold (loaded v false d).
  apply (body_back deflate inflate dct_encode dct_decode jpx_decode (close_data cbc_encrypt to num' gen') (open_data cbc_decrypt to num' gen') (secured to) (v_dirty to) Hz
           (data_cipher to num' gen' Ht) _ ns b) in Ee; cbn [decoded dirty header exempt]; rewrite ?H1; try assumption.
  - cbn [header exempt] in Ee. rewrite H4 in Ee. rewrite Ee, Eb. reflexivity.
  - reflexivity.
  - intros (l & Hl). left. assert (Ha : is_array h).
    { rewrite Hl in Hff. destruct (sm_find (str "Filter") h) as [o|] eqn:Eo'; [|discriminate]. destruct Hff as (o' & E1 & E2). injection E2 as <-.
      destruct o; cbn [map_strings] in E1; try (apply ok_inj in E1; discriminate); try (apply rbind_ok in E1; destruct E1 as (y & _ & E1); discriminate). eexists. exact Eo'. }
    unfold secured. now rewrite (Harr Ha).
Qed.
End S.

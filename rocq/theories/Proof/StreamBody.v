(** Proofs about Model/StreamBody.v *)
From Coq Require Import List NArith ZArith Bool Lia String.
From Coq Require Import List.
From Verif.Model Require Import Base SMap Object Filters Encryption StreamBody.
From Verif.Spec Require Import StreamBody.
From Verif.Proof Require Import Tac Containers.
Import ListNotations.
Local Open Scope N_scope.

Lemma ok_inj : forall {A} (a b : A), Ok a = Ok b -> a = b.
Proof. congruence. Qed.

Section P.
Variables deflate inflate : bytes -> res bytes.
Variables dct_encode dct_decode jpx_decode : dict -> bytes -> res bytes.
Variables encrypt decrypt : option bytes -> bytes -> res bytes.
Variables is_encrypted encryption_dirty : bool.
Hypothesis zlib : undoes deflate inflate.
Hypothesis cipher : forall h, undoes (encrypt h) (decrypt h).

Notation fencode := (filter_encode deflate dct_encode).
Notation fdecode := (filter_decode inflate dct_decode jpx_decode).
Notation encode_all_ := (encode_all deflate dct_encode encrypt is_encrypted).
Notation decode_all_ := (decode_all inflate dct_decode jpx_decode).
Notation get_body_ := (get_body inflate dct_decode jpx_decode decrypt is_encrypted).
Notation get_decrypted_ := (get_decrypted decrypt is_encrypted).
Notation get_encoded_ := (get_encoded deflate inflate dct_encode dct_decode jpx_decode encrypt decrypt is_encrypted encryption_dirty).

Lemma contains_some : forall k (d : dict) o, sm_find k d = Some o -> sm_contains k d = true.
Proof. intros k d o H. unfold sm_contains. now rewrite H. Qed.
Lemma contains_none : forall k (d : dict), sm_find k d = None -> sm_contains k d = false.
Proof. intros k d H. unfold sm_contains. now rewrite H. Qed.

Lemma flate_plain : forall p e b, no_predictor p -> inflate e = Ok b -> flate_decode inflate p e = Ok b.
Proof.
  intros p e b Hp Hi. unfold flate_decode. rewrite Hi. cbn [rbind]. unfold integer_or, find_integer.
  destruct Hp as [Hp|Hp].
  - rewrite (contains_none _ _ Hp). reflexivity.
  - rewrite (contains_some _ _ _ Hp), Hp. reflexivity.
Qed.

(** what a filter that can encode, and is not lossy, gives back *)
Lemma filter_back : forall n f p p' b e, n <> str "DCTDecode" -> filter_by_name n = Ok f -> fencode f p b = Ok e -> no_predictor p' -> f = FFlate /\ deflate b = Ok e /\ fdecode f p' e = Ok b.
Proof.
  intros n f p p' b e Hn Hf He Hp. unfold filter_by_name in Hf.
  destruct (beq n (str "FlateDecode")) eqn:E1.
  { injection Hf as <-. cbn in *. split; [reflexivity|]. split; [exact He|]. apply flate_plain; [exact Hp|]. now apply zlib. }
  destruct (beq n (str "ASCII85Decode")). { injection Hf as <-. discriminate. }
  destruct (beq n (str "ASCIIHexDecode")). { injection Hf as <-. discriminate. }
  destruct (beq n (str "DCTDecode")) eqn:E4. { apply beq_true in E4. contradiction. }
  destruct (beq n (str "LZWDecode")). { injection Hf as <-. discriminate. }
  destruct (beq n (str "JPXDecode")). { injection Hf as <-. discriminate. }
  discriminate.
Qed.
Lemma no_predictor_nil : no_predictor [].
Proof. left. reflexivity. Qed.

(** [deflate] so many times *)
Fixpoint times (n : nat) (b : bytes) : res bytes := match n with O => Ok b | S k => do x <- times k b;; deflate x end.
Lemma times_first : forall n b, times (S n) b = do x <- deflate b;; times n x.
Proof.
  induction n as [|n IH]; intros b.
  - cbn. destruct (deflate b); reflexivity.
  - change (times (S (S n)) b) with (do x <- times (S n) b;; deflate x). rewrite IH. destruct (deflate b) as [x| | |]; reflexivity.
Qed.

Lemma not_crypt : forall n f, filter_by_name n = Ok f -> beq n (str "Crypt") = false.
Proof.
  intros n f H. destruct (beq n (str "Crypt")) eqn:E; [|reflexivity]. apply beq_true in E. subst n. vm_compute in H. discriminate.
Qed.

Lemma encode_times : forall s ps l i b e, (forall n, In n l -> n <> str "DCTDecode") -> encode_all_ s ps i l b = Ok e -> times (List.length l) b = Ok e /\ Forall (fun n => filter_by_name n = Ok FFlate) l.
Proof.
  intros s ps l. induction l as [|n l IH]; intros i b e Hd H; [split; [exact H|constructor]|].
  cbn [encode_all] in H. apply rbind_ok in H. destruct H as (b1 & E1 & H). apply rbind_ok in H. destruct H as (f & Ef & H).
  rewrite (not_crypt _ _ Ef) in E1. injection E1 as <-. apply rbind_ok in H. destruct H as (b2 & E2 & H).
  assert (Hn : n <> str "DCTDecode") by (apply Hd; now left).
  assert (Hb : exists p, fencode f p b = Ok b2).
  { destruct ps as [ps|]; [|now exists []]. destruct (nth_error ps i) as [o|]; [|now exists []]. destruct o; try discriminate; try (now exists []); eauto. }
  destruct Hb as (p & Hb). destruct (filter_back n f p [] b b2 Hn Ef Hb no_predictor_nil) as (-> & Hdf & _).
  destruct (IH (S i) b2 e) as (H1 & H2); [intros m Hm; apply Hd; now right|exact H|].
  cbn [List.length]. rewrite times_first, Hdf. cbn [rbind]. split; [exact H1|]. constructor; assumption.
Qed.

Definition plain_option (n : nat) (ps : option (list obj)) : Prop := match ps with None => True | Some l => (n <= List.length l)%nat /\ Forall plain_parameter l end.
Lemma decode_times : forall ps l i b e, plain_option (i + List.length l) ps -> Forall (fun n => filter_by_name n = Ok FFlate) l -> times (List.length l) b = Ok e -> decode_all_ ps i l e = Ok b.
Proof.
  intros ps l. induction l as [|n l IH]; intros i b e Hp Hl H; [cbn in *; congruence|].
  cbn [List.length times] in H. apply rbind_ok in H. destruct H as (x & Hx & H). inversion Hl as [|? ? Hn Hl']; subst.
  cbn [decode_all]. rewrite (not_crypt _ _ Hn), Hn. cbn [rbind].
  assert (Hd : match ps with
               | Some ps0 => match nth_error ps0 i with
                     | Some ONull => fdecode FFlate [] e | Some (ODict d) => fdecode FFlate d e | Some (ORef _ _) => Throw ENotModelled
                     | Some _ => Throw EConversion | None => Undef end
               | None => fdecode FFlate [] e end = Ok x).
  { assert (Hi : inflate e = Ok x) by (now apply zlib). destruct ps as [ps|]; [|apply flate_plain; [apply no_predictor_nil|exact Hi]].
    destruct Hp as (Hlen & Hall). cbn [List.length] in Hlen. destruct (nth_error ps i) as [o|] eqn:En; [|apply nth_error_None in En; lia].
    apply nth_error_In in En. rewrite Forall_forall in Hall. destruct (Hall o En) as [->|(d & -> & Hd)]; cbn [filter_decode].
    - apply flate_plain; [apply no_predictor_nil|exact Hi].
    - apply flate_plain; assumption. }
  rewrite Hd. cbn [rbind]. apply IH; [|exact Hl'|exact Hx]. cbn [List.length] in Hp. destruct ps as [ps|]; [|exact I]. replace (S i + List.length l)%nat with (i + S (List.length l))%nat by lia. exact Hp.
Qed.

Lemma names_map : forall l ns, names_of l = Some ns -> l = map OName ns.
Proof.
  induction l as [|o l IH]; intros ns H; cbn in H; [injection H as <-; reflexivity|]. destruct o; try discriminate.
  destruct (names_of l) as [m|]; [|discriminate]. injection H as <-. cbn. f_equal. now apply IH.
Qed.
Lemma map_names : forall ns, names_of (map OName ns) = Some ns.
Proof. induction ns as [|n ns IH]; [reflexivity|]. cbn. now rewrite IH. Qed.

Lemma crypt_index_none : forall ns, Forall (fun n => filter_by_name n = Ok FFlate) ns -> crypt_index ns = None.
Proof. intros ns H. induction H as [|n ns Hn Hns IH]; [reflexivity|]. cbn [crypt_index]. rewrite (not_crypt _ _ Hn), IH. reflexivity. Qed.

Lemma find_dict_ok : forall k d p, find_dict k d = Ok p -> sm_find k d = Some (ODict p).
Proof. intros k d p H. unfold find_dict in H. destruct (sm_find k d) as [o|]; [|discriminate]. destruct o; try discriminate. injection H as ->. reflexivity. Qed.
Lemma find_array_ok : forall k d l, find_array k d = Ok l -> sm_find k d = Some (OArr l).
Proof. intros k d p H. unfold find_array in H. destruct (sm_find k d) as [o|]; [|discriminate]. destruct o; try discriminate. injection H as ->. reflexivity. Qed.

(** the body of a changed stream, by any filters that are not lossy and have no prediction, comes back *)
Lemma body_back : forall s ns b e, decoded s = Some b -> dirty s = true -> filter_list (header s) ns -> ~ In (str "DCTDecode") ns -> plain_parameters (header s) (List.length ns) ->
  (is_array (header s) -> is_encrypted = false \/ exempt s = true) ->
  get_encoded_ s = Ok e -> get_body_ (loaded (header s) (exempt s) e) = Ok b.
Proof.
  intros s ns b e Hb Hdirty Hfl Hdct Hpar Harr He. unfold get_encoded in He. rewrite Hdirty, Hb in He. cbn [negb orb] in He. rewrite andb_false_r in He.
  unfold encode_changed in He. unfold get_body in He at 1. rewrite Hb in He. cbn [rbind] in He.
  assert (Henc : forall h x y, encrypt_body encrypt is_encrypted s h x = Ok y -> (if exempt s || negb is_encrypted then Ok y else decrypt h y) = Ok x).
  { intros h x y H. unfold encrypt_body in H. destruct (exempt s || negb is_encrypted); [exact (eq_sym H)|]. now apply cipher in H. }
  unfold get_body. cbn [loaded decoded header]. destruct Hfl as [d Hf|d Hf|d n Hf|d ns Hf].
  - rewrite (contains_none _ _ Hf) in *. cbn [negb] in *. unfold get_decrypted. cbn [loaded decrypted exempt raw header]. rewrite (contains_none _ _ Hf). cbn [negb]. apply Henc. exact He.
  - rewrite (contains_some _ _ _ Hf) in *. cbn [negb] in *. unfold find_obj in *. rewrite Hf in *. cbn [rbind] in *.
    unfold get_decrypted. cbn [loaded decrypted exempt raw header]. rewrite (contains_some _ _ _ Hf). unfold find_obj. rewrite Hf. cbn [negb rbind]. apply Henc. exact He.
  - rewrite (contains_some _ _ _ Hf) in *. cbn [negb] in *. unfold find_obj in *. rewrite Hf in *. cbn [rbind] in *.
    unfold get_decrypted. cbn [loaded decrypted exempt raw header]. rewrite (contains_some _ _ _ Hf). unfold find_obj. rewrite Hf. cbn [negb rbind].
    destruct (beq n (str "Crypt")) eqn:Ec.
    + apply rbind_ok in He. destruct He as (p & Ep & He). apply rbind_ok in He. destruct He as (h & Eh & He). rewrite Ep. cbn [rbind]. rewrite Eh. cbn [rbind]. apply Henc. exact He.
    + apply rbind_ok in He. destruct He as (f & Ef & He). apply rbind_ok in He. destruct He as (p & Ep & He). apply rbind_ok in He. destruct He as (x & Ex & He).
      rewrite Ef. cbn [rbind]. rewrite Ep. cbn [rbind]. rewrite (Henc _ _ _ He). cbn [rbind].
      assert (Hnp : no_predictor p).
      { destruct Hpar as [Hp|[(q & Hp & Hq)|(l & Hp & _)]].
        - rewrite (contains_none _ _ Hp) in Ep. injection Ep as <-. apply no_predictor_nil.
        - rewrite (contains_some _ _ _ Hp) in Ep. apply find_dict_ok in Ep. rewrite Hp in Ep. injection Ep as <-. exact Hq.
        - rewrite (contains_some _ _ _ Hp) in Ep. apply find_dict_ok in Ep. congruence. }
      eapply (filter_back n f p p b x); [|exact Ef|exact Ex|exact Hnp]. intros ->. apply Hdct. now left.
  - rewrite (contains_some _ _ _ Hf) in *. cbn [negb] in *. unfold find_obj in *. rewrite Hf in *. cbn [rbind] in *. rewrite map_names in *.
    apply rbind_ok in He. destruct He as (ps & Eps & He). rewrite Eps. cbn [rbind].
    destruct (encode_times _ _ _ _ _ _ ltac:(intros m Hm ->; apply Hdct; exact Hm) He) as (Ht & Hall).
    unfold get_decrypted. cbn [loaded decrypted exempt raw header].
    assert (Hx : exempt s || negb is_encrypted = true).
    { destruct (Harr ltac:(eexists; exact Hf)) as [->| ->]; [apply orb_true_r|reflexivity]. }
    rewrite Hx. cbn [rbind]. eapply decode_times; [|exact Hall|exact Ht]. cbn [Nat.add].
    destruct Hpar as [Hp|[(q & Hp & Hq)|(l & Hp & Hlen & Hl)]].
    + rewrite (contains_none _ _ Hp) in Eps. injection Eps as <-. exact I.
    + rewrite (contains_some _ _ _ Hp) in Eps. apply rbind_ok in Eps. destruct Eps as (a & Ea & _). apply find_array_ok in Ea. congruence.
    + rewrite (contains_some _ _ _ Hp) in Eps. apply rbind_ok in Eps. destruct Eps as (a & Ea & Eps). apply find_array_ok in Ea. injection Eps as <-. assert (a = l) by congruence. subst a. split; assumption.
Qed.

(** a stream whose body was at most read *)
Lemma read_same : forall s s', decoded s = None -> read_body inflate dct_decode jpx_decode decrypt is_encrypted s = Ok s' ->
  get_body_ s' = get_body_ s /\ header s' = header s /\ raw s' = raw s /\ dirty s' = dirty s /\ exempt s' = exempt s /\
  (decrypted s = None -> get_decrypted_ s' = get_decrypted_ s).
Proof.
  intros s s' Hd H. unfold read_body in H. apply rbind_ok in H. destruct H as (b & Eb & H). apply ok_inj in H. subst s'. cbn [header raw dirty exempt].
  assert (Hdec : forall k, get_decrypted_ {| header := header s; raw := raw s;
    decrypted := match decrypted s with Some x => Some x | None => match get_decrypted_ s with Ok x => Some x | _ => None end end; decoded := k; dirty := dirty s; exempt := exempt s |} = get_decrypted_ s).
  { intros k. unfold get_decrypted at 1. cbn [decrypted header raw exempt]. destruct (decrypted s) as [x|] eqn:Ex; [unfold get_decrypted; now rewrite Ex|].
    destruct (get_decrypted_ s) as [x| | |] eqn:Eg; try reflexivity; rewrite <- Eg; unfold get_decrypted; rewrite Ex; reflexivity. }
  split; [|split; [reflexivity|split; [reflexivity|split; [reflexivity|split; [reflexivity|intros _; apply Hdec]]]]].
  rewrite Eb. unfold get_body. cbn [decoded]. rewrite Hd. destruct (sm_find (str "Filter") (header s)) as [o|] eqn:Ef; [|reflexivity].
  destruct o; try reflexivity. cbn [header]. rewrite (contains_some _ _ _ Ef). unfold find_obj. rewrite Ef. cbn [negb rbind]. rewrite Hdec.
  unfold get_body in Eb. rewrite Hd, (contains_some _ _ _ Ef) in Eb. unfold find_obj in Eb. rewrite Ef in Eb. exact Eb.
Qed.

Lemma crypt_index_in : forall ns, ~ In (str "Crypt") ns -> crypt_index ns = None.
Proof.
  induction ns as [|n ns IH]; intros H; [reflexivity|]. cbn [crypt_index]. destruct (beq n (str "Crypt")) eqn:E.
  - apply beq_true in E. exfalso. apply H. now left.
  - rewrite IH; [reflexivity|]. intros Hi. apply H. now right.
Qed.
(** without a Crypt filter the whole data is deciphered with the filter for streams *)
Lemma decrypted_plain : forall d ns ex data, filter_list d ns -> ~ In (str "Crypt") ns ->
  get_decrypted_ (loaded d ex data) = if ex || negb is_encrypted then Ok data else decrypt None data.
Proof.
  intros d ns ex data Hf Hc. unfold get_decrypted. cbn [loaded decrypted exempt header raw]. destruct (ex || negb is_encrypted); [reflexivity|].
  destruct Hf as [d Hf|d Hf|d n Hf|d ns Hf].
  - now rewrite (contains_none _ _ Hf).
  - rewrite (contains_some _ _ _ Hf). unfold find_obj. rewrite Hf. reflexivity.
  - rewrite (contains_some _ _ _ Hf). unfold find_obj. rewrite Hf. cbn [negb rbind]. destruct (beq n (str "Crypt")) eqn:E; [|reflexivity].
    apply beq_true in E. exfalso. apply Hc. now left.
  - rewrite (contains_some _ _ _ Hf). unfold find_obj. rewrite Hf. cbn [negb rbind]. rewrite map_names, crypt_index_in by exact Hc. reflexivity.
Qed.
Lemma body_by_decrypted : forall d ex a b, get_decrypted_ (loaded d ex a) = get_decrypted_ (loaded d ex b) -> get_body_ (loaded d ex a) = get_body_ (loaded d ex b).
Proof. intros d ex a b H. unfold get_body. cbn [loaded decoded header]. unfold loaded in H. unfold loaded. rewrite H. reflexivity. Qed.
Lemma unchanged_back : forall d ns ex data s e, filter_list d ns -> ~ In (str "Crypt") ns ->
  (s = loaded d ex data \/ read_body inflate dct_decode jpx_decode decrypt is_encrypted (loaded d ex data) = Ok s) ->
  get_encoded_ s = Ok e -> get_body_ (loaded d ex e) = get_body_ (loaded d ex data).
Proof.
  intros d ns ex data s e Hf Hc Hs He.
  assert (Hsame : raw s = data /\ dirty s = false /\ exempt s = ex /\ get_decrypted_ s = get_decrypted_ (loaded d ex data)).
  { destruct Hs as [->|Hs]; [auto|]. destruct (read_same (loaded d ex data) s eq_refl Hs) as (_ & _ & Hr & Hdt & Hex & Hdc). rewrite Hr, Hdt, Hex, Hdc by reflexivity. auto. }
  destruct Hsame as (Hr & Hdt & Hex & Hdc). apply body_by_decrypted. rewrite !(decrypted_plain d ns) by assumption.
  unfold get_encoded in He. rewrite Hdt, Hr in He. cbn [negb orb] in He. rewrite andb_true_r in He.
  destruct (negb is_encrypted && negb encryption_dirty) eqn:E0.
  - apply ok_inj in He. subst e. reflexivity.
  - apply rbind_ok in He. destruct He as (x & Ex & He). rewrite Hdc, (decrypted_plain d ns) in Ex by assumption. unfold encrypt_body in He. rewrite Hex in He.
    destruct (ex || negb is_encrypted); [congruence|]. rewrite (cipher None _ _ He). exact (eq_sym Ex).
Qed.
End P.

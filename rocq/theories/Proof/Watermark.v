(** Lemmas for C100. *)
From Coq Require Import List NArith ZArith Bool Lia String Sorted.
From Verif.Model Require Import Base Numbers SMap Object Equality Watermark.
From Verif.Spec Require Import Watermark.
From Verif.Proof Require Import Tac Strings StreamObj SMap.
Import ListNotations.
Local Open Scope N_scope.

Definition objects_of := N -> N -> obj.
Lemma okay : forall A (a b : A), Ok a = Ok b -> a = b.
Proof. intros A a b H. congruence. Qed.

(** ** dictionaries that grow *)
Lemma grown_refl : forall font k o, grown font k o o.
Proof. intros font [|k] o; left; reflexivity. Qed.
Lemma grown_up : forall font k a b, grown font k a b -> grown font (S k) a b.
Proof.
  intros font. induction k as [|k IH]; intros a b [E|H]; try (left; exact E); [contradiction|].
  right. destruct a as [| | | | | | | | |m|]; try contradiction. destruct b as [| | | | | | | | |m'|]; try contradiction.
  intros key Hk. specialize (H key Hk). destruct (sm_find key m) as [v|], (sm_find key m') as [v'|]; auto.
  destruct H as [H|[H1 H2]]; [left; exact H|right; split; [exact H1|]]. apply IH; exact H2.
Qed.
Lemma grown_le : forall font k k' a b, (k <= k')%nat -> grown font k a b -> grown font k' a b.
Proof. intros font k k' a b H G. induction H; [exact G|apply grown_up; exact IHle]. Qed.
Lemma grown_other : forall font k a b, grown font k a b -> (forall m, a <> ODict m) -> b = a.
Proof. intros font [|k] a b [E|H] N; try congruence; [contradiction|]. destruct a; try contradiction. exfalso; eapply N; reflexivity. Qed.
Lemma grown_dict : forall font k m b, grown font k (ODict m) b -> exists m', b = ODict m'.
Proof. intros font [|k] m b [E|H]; try (subst; eauto); [contradiction|]. destruct b; try contradiction. eauto. Qed.
Lemma grown_back : forall font k a m', grown font k a (ODict m') -> exists m, a = ODict m.
Proof. intros font [|k] a m' [E|H]; try (subst; eauto); [contradiction|]. destruct a; try contradiction. eauto. Qed.
Lemma grown_trans : forall n g k a b c, grown (ORef n g) k a b -> grown (ORef n g) k b c -> grown (ORef n g) k a c.
Proof.
  intros n g. induction k as [|k IH]; intros a b c H1 H2.
  - destruct H1 as [->|[]]. exact H2.
  - destruct H1 as [->|H1]; [exact H2|]. destruct H2 as [<-|H2]; [right; exact H1|]. right.
    destruct a as [| | | | | | | | |m|]; try contradiction. destruct b as [| | | | | | | | |m1|]; try contradiction. destruct c as [| | | | | | | | |m2|]; try contradiction.
    intros key Hk. specialize (H1 key Hk). specialize (H2 key Hk).
    destruct (sm_find key m) as [v|], (sm_find key m1) as [v1|], (sm_find key m2) as [v2|]; try contradiction; auto.
    + eapply IH; eassumption.
    + destruct H1 as [[K ->]|[K G]]; [left; split; [exact K|]|right; split; [exact K|]].
      * eapply grown_other; [exact H2|discriminate].
      * eapply IH; eassumption.
Qed.
Lemma grown_find : forall font k m m' key, all_bytes key -> grown font (S k) (ODict m) (ODict m') ->
  match sm_find key m, sm_find key m' with
  | Some v, Some v' => grown font k v v'
  | Some _, None => False
  | None, Some v' => (key = mark_font /\ v' = font) \/ (In key new_dictionaries /\ grown font k (ODict []) v')
  | None, None => True
  end.
Proof.
  intros font k m m' key Hk [E|H]; [|apply H; exact Hk]. assert (Em : m = m') by congruence. subst m'.
  destruct (sm_find key m); [apply grown_refl|exact I].
Qed.

Lemma tidy_dict : forall m, tidy (ODict m) -> sm_sorted m /\ sm_keys_ok m /\ (forall k v, In (k, v) m -> tidy v).
Proof. intros m H. inversion H as [o A]; subst. apply A; reflexivity. Qed.
Lemma tidy_nil : tidy (ODict []).
Proof. constructor. intros m E. assert (m = []) by congruence. subst. split; [constructor|]. split; [constructor|]. intros k v []. Qed.
Lemma tidy_other : forall o, (forall m, o <> ODict m) -> tidy o.
Proof. intros o H. constructor. intros m E. exfalso; eapply H; exact E. Qed.

Lemma in_insert : forall (m : list (bytes * obj)) k v e, In e (sm_insert k v m) -> e = (k, v) \/ In e m.
Proof.
  induction m as [|[k' v'] m IH]; intros k v e H; cbn [sm_insert] in H; [destruct H as [<-|[]]; auto|].
  destruct (buffer_ltb k k'); [destruct H as [<-|H]; auto|]. destruct (buffer_ltb k' k); [|auto].
  destruct H as [<-|H]; [right; left; reflexivity|]. apply IH in H. destruct H; [auto|right; right; assumption].
Qed.
Lemma in_remove : forall (m : list (bytes * obj)) k e, In e (sm_remove k m) -> In e m.
Proof.
  induction m as [|[k' v'] m IH]; intros k e H; cbn [sm_remove] in H; [destruct H|].
  destruct (buffer_ltb k k'); [exact H|]. destruct (buffer_ltb k' k); [|right; exact H].
  destruct H as [<-|H]; [left; reflexivity|right; eapply IH; exact H].
Qed.

Lemma tidy_insert : forall m k v, tidy (ODict m) -> all_bytes k -> tidy v -> tidy (ODict (sm_insert k v m)).
Proof.
  intros m k v T Hk Tv. destruct (tidy_dict _ T) as (A & B & C). constructor. intros m0 E. assert (m0 = sm_insert k v m) by congruence. subst m0.
  split; [apply sm_insert_sorted; exact A|]. split; [apply sm_insert_keys_ok; assumption|].
  intros k0 v0 H. apply in_insert in H. destruct H as [H|H]; [|eapply C; exact H]. assert (v0 = v) by congruence. subst. exact Tv.
Qed.
Lemma tidy_remove : forall m k, tidy (ODict m) -> tidy (ODict (sm_remove k m)).
Proof.
  intros m k T. destruct (tidy_dict _ T) as (A & B & C). constructor. intros m0 E. assert (m0 = sm_remove k m) by congruence. subst m0.
  split; [apply sm_remove_sorted; exact A|]. split; [apply sm_remove_forall; exact B|]. intros k0 v0 H. eapply C. eapply in_remove. exact H.
Qed.
Lemma tidy_find : forall m k v, tidy (ODict m) -> all_bytes k -> sm_find k m = Some v -> tidy v.
Proof. intros m k v T Hk F. destruct (tidy_dict _ T) as (A & B & C). eapply C. apply sm_find_in in F; eassumption. Qed.
Lemma find_replaced : forall m k v key, tidy (ODict m) -> all_bytes k -> all_bytes key ->
  sm_find key (sm_insert k v (sm_remove k m)) = if list_eq_dec N.eq_dec key k then Some v else sm_find key m.
Proof.
  intros m k v key T Hk Hkey. destruct (tidy_dict _ T) as (A & B & _).
  rewrite sm_find_insert; [|apply sm_remove_sorted; exact A|apply sm_remove_forall; exact B|exact Hk|exact Hkey].
  rewrite sm_find_remove by assumption. destruct (list_eq_dec N.eq_dec key k); [reflexivity|]. destruct (sm_find key m); reflexivity.
Qed.

Lemma insert_grown : forall font k m key v, tidy (ODict m) -> all_bytes key -> sm_find key m = None ->
  (key = mark_font /\ v = font) \/ (In key new_dictionaries /\ grown font k (ODict []) v) -> grown font (S k) (ODict m) (ODict (sm_insert key v m)).
Proof.
  intros font k m key v T Hk F H. right. intros key2 Hk2. destruct (tidy_dict _ T) as (A & B & _). rewrite sm_find_insert by assumption.
  destruct (sm_find key2 m) as [w|] eqn:E; [apply grown_refl|]. destruct (list_eq_dec N.eq_dec key2 key) as [->|]; [exact H|exact I].
Qed.

(** ** places *)
Lemma put_sub_grown : forall font path k m m0 m', Forall all_bytes path -> tidy (ODict m) -> sub_dict m path = Some m0 ->
  grown font k (ODict m0) (ODict m') -> tidy (ODict m') ->
  grown font (k + List.length path) (ODict m) (ODict (put_sub m path m')) /\ tidy (ODict (put_sub m path m')) /\ sub_dict (put_sub m path m') path = Some m' /\ tidy (ODict m0).
Proof.
  induction path as [|key path IH]; intros k m m0 m' HB T S G T'; cbn [sub_dict put_sub] in *.
  - assert (m = m0) by congruence. subst. replace (k + List.length (@nil bytes))%nat with k by (cbn; lia). auto.
  - inversion HB as [|? ? Hkey HB']; subst. destruct (sm_find key m) as [v|] eqn:E; [|discriminate S]. destruct v as [| | | | | | | | |x|]; try discriminate S.
    assert (Tx := tidy_find _ _ _ T Hkey E). destruct (IH k x m0 m' HB' Tx S G T') as (G1 & T1 & S1 & T0).
    split; [|split; [|split]].
    + replace (k + List.length (key :: path))%nat with (Datatypes.S (k + List.length path)) by (cbn [List.length]; lia). right. intros key2 Hk2. rewrite find_replaced by assumption.
      destruct (list_eq_dec N.eq_dec key2 key) as [->|Hne]; [rewrite E; exact G1|]. destruct (sm_find key2 m); [apply grown_refl|exact I].
    + apply tidy_insert; [apply tidy_remove; exact T|exact Hkey|exact T1].
    + rewrite find_replaced by assumption. destruct (list_eq_dec N.eq_dec key key) as [_|X]; [exact S1|congruence].
    + exact T0.
Qed.

Lemma sub_dict_app : forall path m key m0 x, sub_dict m path = Some m0 -> sm_find key m0 = Some (ODict x) -> sub_dict m (path ++ [key]) = Some x.
Proof.
  induction path as [|k path IH]; intros m key m0 x S F; cbn [sub_dict app] in *; [assert (m = m0) by congruence; subst; rewrite F; reflexivity|].
  destruct (sm_find k m) as [v|]; [|discriminate S]. destruct v; try discriminate S. eapply IH; eassumption.
Qed.

Lemma put_same : forall d n g o, d_objects (put_object d n g o) n g = o.
Proof. intros. cbn. rewrite !N.eqb_refl. reflexivity. Qed.

(** the document only grows, and the bodies are the same *)
Definition steady (font : obj) (f f' : objects_of) : Prop := (forall n g, grown font 3 (f n g) (f' n g)) /\ (forall n g, tidy (f' n g)).
Lemma steady_refl : forall font f, (forall n g, tidy (f n g)) -> steady font f f.
Proof. intros font f T. split; [intros; apply grown_refl|exact T]. Qed.
Lemma steady_trans : forall n g f f1 f2, steady (ORef n g) f f1 -> steady (ORef n g) f1 f2 -> steady (ORef n g) f f2.
Proof. intros n g f f1 f2 [A _] [B T]. split; [|exact T]. intros a b. eapply grown_trans; [apply A|apply B]. Qed.

Definition path_ok (pl : place) (k : nat) : Prop := Forall all_bytes (snd pl) /\ (List.length (snd pl) <= k)%nat.

Lemma set_at_steady : forall font d pl m0 m', (forall n g, tidy (d_objects d n g)) -> path_ok pl 2 -> dict_at d pl = Some m0 ->
  grown font 1 (ODict m0) (ODict m') -> tidy (ODict m') ->
  steady font (d_objects d) (d_objects (set_at d pl m')) /\ dict_at (set_at d pl m') pl = Some m' /\ d_bodies (set_at d pl m') = d_bodies d.
Proof.
  intros font d [[n g] path] m0 m' T [HB HL] D G T'. cbn [snd] in *. unfold dict_at, set_at in *.
  destruct (d_objects d n g) as [| | | | | | | | |m|] eqn:E; try discriminate D.
  assert (Tm := T n g). rewrite E in Tm. destruct (put_sub_grown font path 1 m m0 m' HB Tm D G T') as (G1 & T1 & S1 & _).
  split; [|split; [|reflexivity]].
  - split; intros a b; cbn [put_object d_objects]; (destruct ((a =? n) && (b =? g)) eqn:Eab; [|try apply grown_refl; apply T]).
    + assert (a = n /\ b = g) as [-> ->] by (split; lia). rewrite E. apply (grown_le font (1 + List.length path)); [lia|exact G1].
    + exact T1.
  - rewrite put_same. exact S1.
Qed.

Lemma dict_at_tidy : forall d pl m, (forall n g, tidy (d_objects d n g)) -> Forall all_bytes (snd pl) -> dict_at d pl = Some m -> tidy (ODict m).
Proof.
  intros d [[n g] path] m T HB D. cbn [snd] in HB. unfold dict_at in D. destruct (d_objects d n g) as [| | | | | | | | |m0|] eqn:E; try discriminate D.
  assert (Tm := T n g). rewrite E in Tm. destruct (put_sub_grown (ODict []) path 0 m0 m m HB Tm D (grown_refl _ _ _)) as (_ & _ & _ & X); [|exact X].
  clear E. revert m0 D Tm. induction path as [|k path IH]; intros m0 D Tm; cbn [sub_dict] in D; [assert (m0 = m) by congruence; subst; exact Tm|].
  inversion HB as [|? ? Hk HB']; subst. destruct (sm_find k m0) as [v|] eqn:Ek; [|discriminate D]. destruct v as [| | | | | | | | |x|]; try discriminate D.
  eapply IH; [exact HB'|exact D|]. eapply tidy_find; eassumption.
Qed.

Lemma new_keys_bytes : forall key, In key new_dictionaries -> all_bytes key.
Proof. intros key [<-|[<-|[]]]; apply str_bytes. Qed.

Lemma child_steady : forall font d pl key d1 pl1 k, (forall n g, tidy (d_objects d n g)) -> path_ok pl k -> (k <= 2)%nat -> In key new_dictionaries ->
  child d pl key = Ok (d1, pl1) ->
  steady font (d_objects d) (d_objects d1) /\ d_bodies d1 = d_bodies d /\ path_ok pl1 (S k) /\
  exists m1 v m2, dict_at d1 pl = Some m1 /\ sm_find key m1 = Some v /\ dict_at d1 pl1 = Some m2 /\
    ((v = ODict m2 /\ pl1 = (fst pl, snd pl ++ [key])) \/ exists a b, v = ORef a b /\ pl1 = (a, b, [])).
Proof.
  intros font d pl key d1 pl1 k T [HB HL] Hk Hin H. assert (Hkey := new_keys_bytes _ Hin). unfold child in H.
  destruct (dict_at d pl) as [m|] eqn:D; [|discriminate H].
  set (dx := if sm_contains key m then d else set_at d pl (sm_insert key (ODict []) m)) in *.
  assert (S1 : steady font (d_objects d) (d_objects dx) /\ d_bodies dx = d_bodies d).
  { subst dx. unfold sm_contains. destruct (sm_find key m) eqn:F; [split; [apply steady_refl; exact T|reflexivity]|].
    assert (Tm := dict_at_tidy _ _ _ T HB D).
    edestruct (set_at_steady font d pl m (sm_insert key (ODict []) m) T) as (A & _ & B); [split; [exact HB|lia]|exact D| | |split; [exact A|exact B]].
    - apply insert_grown; [exact Tm|exact Hkey|exact F|]. right. split; [exact Hin|apply grown_refl].
    - apply tidy_insert; [exact Tm|exact Hkey|apply tidy_nil]. }
  clearbody dx. destruct S1 as [S1 B1]. destruct (dict_at dx pl) as [m1|] eqn:D1; [|discriminate H].
  destruct (sm_find key m1) as [v|] eqn:F1; [|discriminate H]. destruct v as [| | | | | | |a b| |x|]; try discriminate H.
  - destruct (d_objects dx a b) as [| | | | | | | | |y|] eqn:Eab; try discriminate H. apply okay in H. apply pair_equal_spec in H. destruct H as [<- <-].
    split; [exact S1|]. split; [exact B1|]. split; [split; [constructor|cbn; lia]|]. exists m1, (ORef a b), y. split; [exact D1|]. split; [exact F1|].
    split; [unfold dict_at; rewrite Eab; reflexivity|]. right. eauto.
  - destruct pl as [[n g] path]. cbn [fst snd] in *. apply okay in H. apply pair_equal_spec in H. destruct H as [<- <-].
    split; [exact S1|]. split; [exact B1|]. split; [split; cbn [snd]; [apply Forall_app; split; [exact HB|repeat constructor; exact Hkey]|rewrite app_length; cbn; lia]|].
    exists m1, (ODict x), x. split; [exact D1|]. split; [exact F1|]. split; [|left; split; reflexivity].
    unfold dict_at in *. destruct (d_objects dx n g); try discriminate D1. eapply sub_dict_app; eassumption.
Qed.

Lemma mark_font_bytes : all_bytes mark_font.
Proof. apply str_bytes. Qed.

Lemma add_font_steady : forall font d pl, (forall n g, tidy (d_objects d n g)) -> path_ok pl 2 ->
  steady (ORef (fst font) (snd font)) (d_objects d) (d_objects (add_font font d pl)) /\ d_bodies (add_font font d pl) = d_bodies d /\
  (forall m, dict_at d pl = Some m -> exists m', dict_at (add_font font d pl) pl = Some m' /\ sm_find mark_font m' <> None).
Proof.
  intros font d pl T HP. unfold add_font. destruct (dict_at d pl) as [m|] eqn:D; [|split; [apply steady_refl; exact T|split; [reflexivity|intros; congruence]]].
  unfold sm_contains. destruct (sm_find mark_font m) eqn:F.
  { split; [apply steady_refl; exact T|split; [reflexivity|]]. intros m0 E. exists m. split; [exact D|congruence]. }
  assert (Tm := dict_at_tidy _ _ _ T (proj1 HP) D).
  destruct (set_at_steady (ORef (fst font) (snd font)) d pl m (sm_insert mark_font (ORef (fst font) (snd font)) m) T HP D) as (A & B & C).
  - apply insert_grown; [exact Tm|apply mark_font_bytes|exact F|]. left. split; reflexivity.
  - apply tidy_insert; [exact Tm|apply mark_font_bytes|]. apply tidy_other. discriminate.
  - split; [exact A|]. split; [exact C|]. intros m0 E. eexists. split; [exact B|].
    destruct (tidy_dict _ Tm) as (X1 & X2 & _). rewrite sm_find_insert by (assumption || apply mark_font_bytes). rewrite F.
    destruct (list_eq_dec N.eq_dec mark_font mark_font); congruence.
Qed.

(** ** what steady documents have in common *)
Lemma steady_other : forall font f f' n g, steady font f f' -> (forall m, f n g <> ODict m) -> f' n g = f n g.
Proof. intros font f f' n g [G _] H. eapply grown_other; [apply G|exact H]. Qed.

Lemma fixed_key : forall font f f' n g m key, steady font f f' -> all_bytes key -> key <> mark_font -> ~ In key new_dictionaries -> f n g = ODict m ->
  exists m', f' n g = ODict m' /\ match sm_find key m with
    | None => sm_find key m' = None
    | Some (ODict _) => exists x, sm_find key m' = Some (ODict x)
    | Some v => sm_find key m' = Some v
    end.
Proof.
  intros font f f' n g m key [G _] Hk H1 H2 E. assert (G0 := G n g). rewrite E in G0. destruct (grown_dict _ _ _ _ G0) as (m' & E'). exists m'. split; [exact E'|].
  rewrite E' in G0. assert (X := grown_find _ _ _ _ key Hk G0). destruct (sm_find key m) as [v|].
  - destruct (sm_find key m') as [v'|]; [|contradiction]. destruct v; try (f_equal; eapply grown_other; [exact X|discriminate]).
    destruct (grown_dict _ _ _ _ X) as (x & ->). eauto.
  - destruct (sm_find key m') as [v'|]; [|reflexivity]. destruct X as [[X _]|[X _]]; contradiction.
Qed.

Lemma contents_fixed : all_bytes (str "Contents") /\ str "Contents" <> mark_font /\ ~ In (str "Contents") new_dictionaries.
Proof. split; [apply str_bytes|]. split; [vm_compute; discriminate|]. vm_compute. intuition discriminate. Qed.
Lemma kids_fixed : all_bytes (str "Kids") /\ str "Kids" <> mark_font /\ ~ In (str "Kids") new_dictionaries.
Proof. split; [apply str_bytes|]. split; [vm_compute; discriminate|]. vm_compute. intuition discriminate. Qed.
Lemma box_fixed : all_bytes (str "MediaBox") /\ str "MediaBox" <> mark_font /\ ~ In (str "MediaBox") new_dictionaries.
Proof. split; [apply str_bytes|]. split; [vm_compute; discriminate|]. vm_compute. intuition discriminate. Qed.

Lemma steady_reference : forall font f f' v, steady font f f' -> stream_reference f' v = stream_reference f v.
Proof.
  intros font f f' v S. destruct v; try reflexivity. cbn [stream_reference].
  match goal with |- context [f' ?a ?b] => assert (X := proj1 S a b); destruct (f a b) eqn:E end; try (rewrite (grown_other _ _ _ _ X) by discriminate; reflexivity).
  destruct (grown_dict _ _ _ _ X) as (x & ->). reflexivity.
Qed.
Lemma steady_array : forall font f f' l, steady font f f' -> array_streams f' l = array_streams f l.
Proof.
  intros font f f' l S. unfold array_streams. replace (forallb (stream_reference f') l) with (forallb (stream_reference f) l); [reflexivity|].
  induction l as [|v l IH]; [reflexivity|]. cbn [forallb]. rewrite IH, (steady_reference _ _ _ v S). reflexivity.
Qed.
Lemma steady_streams : forall font f f' p, steady font f f' -> content_streams f' p = content_streams f p.
Proof.
  intros font f f' [n g] S. unfold content_streams. cbn [fst snd]. destruct contents_fixed as (K1 & K2 & K3).
  destruct (f n g) as [| | | | | | | | |m|] eqn:E; try (rewrite (steady_other _ _ _ n g S) by (rewrite E; discriminate); rewrite E; reflexivity).
  destruct (fixed_key _ _ _ _ _ _ (str "Contents") S K1 K2 K3 E) as (m' & E' & X). rewrite E'.
  destruct (sm_find (str "Contents") m) as [v|]; [|rewrite X; reflexivity].
  destruct v as [| | | | | | |a b|l| |]; try (rewrite X; try reflexivity); [| |destruct X as [x ->]; reflexivity].
  - destruct (f a b) as [| | | | | | | |l| |] eqn:Eab; try (rewrite (steady_other _ _ _ a b S) by (rewrite Eab; discriminate); rewrite Eab; try reflexivity).
    + eapply steady_array; exact S.
    + assert (Y := proj1 S a b). rewrite Eab in Y. destruct (grown_dict _ _ _ _ Y) as (x & ->). reflexivity.
  - eapply steady_array; exact S.
Qed.
Lemma steady_box : forall font f f' p, steady font f f' -> media_box f' p = media_box f p.
Proof.
  intros font f f' [n g] S. unfold media_box. cbn [fst snd]. destruct box_fixed as (K1 & K2 & K3).
  destruct (f n g) as [| | | | | | | | |m|] eqn:E; try (rewrite (steady_other _ _ _ n g S) by (rewrite E; discriminate); rewrite E; reflexivity).
  destruct (fixed_key _ _ _ _ _ _ (str "MediaBox") S K1 K2 K3 E) as (m' & E' & X). rewrite E'.
  destruct (sm_find (str "MediaBox") m) as [v|]; [|rewrite X; reflexivity].
  destruct v as [| | | | | | |a b|l| |]; try (rewrite X; try reflexivity); [|destruct X as [x ->]; reflexivity].
  destruct (f a b) as [| | | | | | | |l| |] eqn:Eab; try (rewrite (steady_other _ _ _ a b S) by (rewrite Eab; discriminate); rewrite Eab; reflexivity).
  assert (Y := proj1 S a b). rewrite Eab in Y. destruct (grown_dict _ _ _ _ Y) as (x & ->). reflexivity.
Qed.
Lemma steady_number : forall real font f f' v z, steady font f f' -> number_of real f' v z -> number_of real f v z.
Proof.
  intros real font f f' v z S H. destruct v as [| | | | | | |a b| | |]; try exact H. unfold number_of in *.
  destruct (f a b) as [| | | | | | | | |m|] eqn:Eab; try (rewrite (steady_other _ _ _ a b S) in H by (rewrite Eab; discriminate); rewrite Eab in H; exact H).
  assert (Y := proj1 S a b). rewrite Eab in Y. destruct (grown_dict _ _ _ _ Y) as (x & X). rewrite X in H. contradiction.
Qed.
Lemma steady_drawn : forall real text image font f f' p t, steady font f f' -> drawn real text image f' p t -> drawn real text image f p t.
Proof.
  intros real text image font f f' p t S H. destruct H as [H|a b c e x y H1 H2 H3].
  - apply dr_text. intros. rewrite <- (steady_box _ _ _ _ S). apply H.
  - eapply dr_image; [rewrite <- (steady_box _ _ _ _ S); exact H1|eapply steady_number; eassumption|eapply steady_number; eassumption].
Qed.
Lemma steady_kids : forall font f f' n g m m' l, steady font f f' -> f n g = ODict m -> f' n g = ODict m' -> kids_of f' m' l -> kids_of f m l.
Proof.
  intros font f f' n g m m' l S E E' H. destruct kids_fixed as (K1 & K2 & K3). destruct (fixed_key _ _ _ _ _ _ (str "Kids") S K1 K2 K3 E) as (m1 & E1 & X).
  assert (m1 = m') by congruence. subst m1. unfold kids_of in *.
  destruct (sm_find (str "Kids") m) as [v|]; [|rewrite X in H; exact H].
  destruct v as [| | | | | | |a b|l0|x0|]; try (rewrite X in H; destruct H as [H|(a0 & b0 & H & _)]; discriminate H).
  - rewrite X in H. destruct H as [H|(a0 & b0 & H & H1)]; [discriminate H|]. right. exists a0, b0. split; [exact H|].
    destruct (f a0 b0) eqn:Eab; try (rewrite (steady_other _ _ _ a0 b0 S) in H1 by (rewrite Eab; discriminate); congruence).
    assert (Y := proj1 S a0 b0). rewrite Eab in Y. destruct (grown_dict _ _ _ _ Y) as (x & Z). congruence.
  - rewrite X in H. destruct H as [H|(a0 & b0 & H & _)]; [left; exact H|discriminate H].
  - destruct X as [x X]. rewrite X in H. destruct H as [H|(a0 & b0 & H & _)]; discriminate H.
Qed.
Lemma steady_nodes : forall font f f' kids nodes, steady font f f' -> page_nodes f' kids nodes -> page_nodes f kids nodes.
Proof.
  intros font f f' kids nodes S H. induction H as [|n g m' l below rest others E K _ IH1 _ IH2]; [constructor|].
  assert (Y := proj1 S n g). rewrite E in Y. destruct (grown_back _ _ _ _ Y) as (m & E0).
  eapply pn_cons; [exact E0|eapply steady_kids; eassumption|exact IH1|exact IH2].
Qed.

(** ** bodies *)
Definition marked (real : bool -> N -> N -> dbl) (text image : bytes) (f : objects_of) (nodes : list (N * N)) (b b' : N -> N -> bytes) : Prop :=
  forall s, exists tails, Forall2 (drawn real text image f) (filter (ends f s) nodes) tails /\
    b' (fst s) (snd s) = saves (List.length (filter (begins f s) nodes)) ++ b (fst s) (snd s) ++ List.concat (map (fun t => restore_line ++ t) tails).

Lemma saves_plus : forall a b, saves (a + b) = saves a ++ saves b.
Proof. intros. unfold saves. rewrite repeat_app, concat_app. reflexivity. Qed.

Lemma marked_nil : forall real text image f b, marked real text image f [] b b.
Proof. intros. intros s. exists []. split; [constructor|]. cbn. rewrite app_nil_r. reflexivity. Qed.
Lemma marked_app : forall real text image f n1 n2 b b1 b2, marked real text image f n1 b b1 -> marked real text image f n2 b1 b2 ->
  marked real text image f (n1 ++ n2) b b2.
Proof.
  intros real text image f n1 n2 b b1 b2 H1 H2 s. destruct (H1 s) as (t1 & F1 & E1), (H2 s) as (t2 & F2 & E2).
  exists (t1 ++ t2). rewrite !filter_app. split; [apply Forall2_app; assumption|].
  rewrite E2, E1, app_length, Nat.add_comm, saves_plus, map_app, concat_app, !app_assoc. reflexivity.
Qed.
Lemma marked_steady : forall real text image font f f' nodes b b', steady font f f' -> marked real text image f' nodes b b' -> marked real text image f nodes b b'.
Proof.
  intros real text image font f f' nodes b b' S H s. destruct (H s) as (t & F & E). exists t.
  assert (A : filter (ends f' s) nodes = filter (ends f s) nodes) by (apply filter_ext; intros p; unfold ends; rewrite (steady_streams _ _ _ p S); reflexivity).
  assert (B : filter (begins f' s) nodes = filter (begins f s) nodes) by (apply filter_ext; intros p; unfold begins; rewrite (steady_streams _ _ _ p S); reflexivity).
  rewrite A in F. rewrite B in E. split; [|exact E]. clear -F S. induction F as [|p t0 ps ts D F IH]; constructor; [eapply steady_drawn; eassumption|exact IH].
Qed.

Section Marks.
Variable real : bool -> N -> N -> dbl.
Variable font : N * N.
Variable text image : bytes.
Let fref := ORef (fst font) (snd font).

Lemma all_streams_spec : forall d l, match all_streams d l with
  | Some r => forallb (stream_reference (d_objects d)) l = true /\ r = flat_map (fun v => match v with ORef n g => [(n, g)] | _ => [] end) l
  | None => forallb (stream_reference (d_objects d)) l = false
  end.
Proof.
  intros d. induction l as [|v l IH]; [split; reflexivity|]. cbn [all_streams]. destruct v as [| | | | | | |n g| | |]; try reflexivity.
  cbn [forallb stream_reference flat_map app]. destruct (d_objects d n g); try reflexivity.
  destruct (all_streams d l) as [r|]; [|exact IH]. destruct IH as [A ->]. split; [exact A|reflexivity].
Qed.
Lemma all_streams_array : forall d l, match all_streams d l with Some (x :: r) => array_streams (d_objects d) l = x :: r | _ => array_streams (d_objects d) l = [] end.
Proof.
  intros d l. assert (X := all_streams_spec d l). unfold array_streams. destruct (all_streams d l) as [r|]; [|rewrite X; reflexivity].
  destruct X as [A ->]. rewrite A. destruct (flat_map _ l); reflexivity.
Qed.

Lemma target_number : forall d v z, box_number real d v = Ok z -> number_of real (d_objects d) v z.
Proof. intros d v z H. unfold box_number, target in H. unfold number_of. destruct v; try discriminate H; try (apply okay in H; auto); try exact H.
  match goal with |- context [d_objects d ?a ?b] => destruct (d_objects d a b) end; try discriminate H; [apply okay in H; auto|exact H].
Qed.

(** the first and the last stream get their lines *)
Lemma mark_ends_spec : forall d p box x r d', content_streams (d_objects d) p = x :: r -> media_box (d_objects d) p = box ->
  mark_ends real text image d box x (last r x) = Ok d' ->
  d_objects d' = d_objects d /\ marked real text image (d_objects d) [p] (d_bodies d) (d_bodies d').
Proof.
  intros d p box x r d' Hs Hb H. unfold mark_ends in H. apply rbind_ok in H. destruct H as (c & Hc & H). apply okay in H. subst d'. split; [reflexivity|].
  assert (D : drawn real text image (d_objects d) p (text ++ match c with
     | Some (x, y) => str "50 0 0 35 " ++ to_string_Z x ++ str " " ++ to_string_Z y ++ str " cm" ++ [10] ++ image | None => [] end)).
  { unfold corner in Hc. cbn [put_body d_objects] in Hc. destruct box as [[|a0 [|b0 [|c0 [|e0 [|]]]]]|];
      try (apply okay in Hc; subst c; rewrite app_nil_r; apply dr_text; intros; rewrite Hb; discriminate).
    apply rbind_ok in Hc. destruct Hc as (_ & _ & Hc). apply rbind_ok in Hc. destruct Hc as (_ & _ & Hc).
    apply rbind_ok in Hc. destruct Hc as (zx & Ex & Hc). apply rbind_ok in Hc. destruct Hc as (zy & Ey & Hc).
    cif_in Hc; [discriminate Hc|]. apply okay in Hc. subst c. eapply dr_image; [exact Hb|apply (target_number _ _ _ Ex)|apply (target_number _ _ _ Ey)]. }
  intros s. unfold begins, ends. cbn [filter]. rewrite Hs. destruct s as [sa sb], x as [xa xb]. destruct (last r (xa, xb)) as [ya yb] eqn:El.
  unfold same_ref. cbn [fst snd put_body d_bodies]. rewrite (N.eqb_sym xa sa), (N.eqb_sym xb sb), (N.eqb_sym ya sa), (N.eqb_sym yb sb).
  destruct ((sa =? ya) && (sb =? yb)) eqn:E1.
  - eexists [_]. split; [constructor; [exact D|constructor]|]. assert (sa = ya /\ sb = yb) as [-> ->] by (split; lia).
    unfold mark, restore_line. destruct ((ya =? xa) && (yb =? xb)) eqn:E2; cbn [List.length saves repeat List.concat map]; unfold saves, save_line; cbn [repeat List.concat];
      [assert (ya = xa /\ yb = xb) as [-> ->] by (split; lia)|]; rewrite ?app_nil_r, ?app_nil_l, <- ?app_assoc; reflexivity.
  - exists []. split; [constructor|]. destruct ((sa =? xa) && (sb =? xb)) eqn:E2; cbn [List.length map List.concat]; unfold saves, save_line; cbn [repeat List.concat];
      [assert (sa = xa /\ sb = xb) as [-> ->] by (split; lia)|]; rewrite ?app_nil_r, ?app_nil_l, <- ?app_assoc; reflexivity.
Qed.
Lemma unmarked : forall d p, content_streams (d_objects d) p = [] -> marked real text image (d_objects d) [p] (d_bodies d) (d_bodies d).
Proof. intros d p H s. exists []. unfold begins, ends. cbn [filter]. rewrite H. split; [constructor|]. cbn. rewrite app_nil_r. reflexivity. Qed.

Lemma mark_contents_spec : forall d n g m v d', d_objects d n g = ODict m -> sm_find (str "Contents") m = Some v ->
  mark_contents real text image d (media_box (d_objects d) (n, g)) v = Ok d' ->
  d_objects d' = d_objects d /\ marked real text image (d_objects d) [(n, g)] (d_bodies d) (d_bodies d').
Proof.
  intros d n g m v d' E F H.
  assert (C : content_streams (d_objects d) (n, g) = match v with
      | ORef a b => match d_objects d a b with OStream _ _ => [(a, b)] | OArr l => array_streams (d_objects d) l | _ => [] end
      | OArr l => array_streams (d_objects d) l | _ => [] end).
  { unfold content_streams. cbn [fst snd]. rewrite E, F. reflexivity. }
  assert (A : forall l, content_streams (d_objects d) (n, g) = array_streams (d_objects d) l ->
    match all_streams d l with Some (x :: r) => mark_ends real text image d (media_box (d_objects d) (n, g)) x (last r x) | _ => Ok d end = Ok d' ->
    d_objects d' = d_objects d /\ marked real text image (d_objects d) [(n, g)] (d_bodies d) (d_bodies d')).
  { intros l Cl Hl. assert (X := all_streams_array d l). destruct (all_streams d l) as [[|x r]|].
    - apply okay in Hl. subst d'. split; [reflexivity|]. apply unmarked. congruence.
    - eapply mark_ends_spec; [rewrite Cl; exact X|reflexivity|exact Hl].
    - apply okay in Hl. subst d'. split; [reflexivity|]. apply unmarked. congruence. }
  unfold mark_contents in H. destruct v as [| | | | | | |a b|l| |]; try (apply okay in H; subst d'; split; [reflexivity|apply unmarked; exact C]).
  - destruct (d_objects d a b) as [| | | | | | | |l| |] eqn:Eab; try (apply okay in H; subst d'; split; [reflexivity|apply unmarked; exact C]).
    + apply (A l C H).
    + eapply (mark_ends_spec d (n, g) _ (a, b) []); [exact C|reflexivity|exact H].
  - apply (A l C H).
Qed.

Lemma mark_page_spec : forall d n g d', (forall a b, tidy (d_objects d a b)) -> mark_page real font text image d n g = Ok d' ->
  steady fref (d_objects d) (d_objects d') /\ marked real text image (d_objects d) [(n, g)] (d_bodies d) (d_bodies d').
Proof.
  intros d n g d' T H. unfold mark_page in H. destruct (d_objects d n g) as [| | | | | | | | |m|] eqn:E; try discriminate H.
  apply rbind_ok in H. destruct H as (_ & _ & H). apply rbind_ok in H. destruct H as (box & Hbox & H).
  assert (Eb : media_box (d_objects d) (n, g) = box).
  { unfold media_box. cbn [fst snd]. rewrite E. destruct (sm_find (str "MediaBox") m) as [v|]; [|apply okay in Hbox; exact Hbox].
    unfold target in Hbox. destruct v as [| | | | | | |a b|l| |]; try discriminate Hbox; [|apply okay in Hbox; exact Hbox].
    destruct (d_objects d a b); try discriminate Hbox. apply okay in Hbox; exact Hbox. }
  unfold sm_contains in H. destruct (sm_find (str "Contents") m) as [v0|] eqn:F.
  2:{ apply okay in H. subst d'. split; [apply steady_refl; exact T|]. apply unmarked. unfold content_streams. cbn [fst snd]. rewrite E, F. reflexivity. }
  apply rbind_ok in H. destruct H as ([d1 pl1] & C1 & H). apply rbind_ok in H. destruct H as ([d2 pl2] & C2 & H).
  destruct (child_steady fref d (n, g, []) (str "Resources") d1 pl1 0 T) as (S1 & B1 & P1 & _); [split; [constructor|cbn; lia]|lia|left; reflexivity|exact C1|].
  destruct (child_steady fref d1 pl1 (str "Font") d2 pl2 1 (proj2 S1) P1) as (S2 & B2 & P2 & _); [lia|right; left; reflexivity|exact C2|].
  destruct (add_font_steady font d2 pl2 (proj2 S2) P2) as (S3 & B3 & _).
  set (d3 := add_font font d2 pl2) in *. assert (S : steady fref (d_objects d) (d_objects d3)) by (eapply steady_trans; [eapply steady_trans; eassumption|exact S3]).
  destruct (d_objects d3 n g) as [| | | | | | | | |m3|] eqn:E3; try discriminate H. destruct (sm_find (str "Contents") m3) as [v|] eqn:F3; [|discriminate H].
  rewrite <- Eb, <- (steady_box _ _ _ (n, g) S) in H. destruct (mark_contents_spec d3 n g m3 v d' E3 F3 H) as [EO M].
  rewrite EO. split; [exact S|]. eapply marked_steady; [exact S|]. rewrite <- B1, <- B2, <- B3. exact M.
Qed.

Lemma mark_nodes_spec : forall fuel d kids d', (forall a b, tidy (d_objects d a b)) -> mark_nodes real font text image fuel d kids = Ok d' ->
  steady fref (d_objects d) (d_objects d') /\
  exists nodes, page_nodes (d_objects d) kids nodes /\ marked real text image (d_objects d) nodes (d_bodies d) (d_bodies d').
Proof.
  induction fuel as [|fuel IH]; intros d kids d' T H; cbn [mark_nodes] in H; [discriminate H|].
  destruct kids as [|k rest]; [apply okay in H; subst d'; split; [apply steady_refl; exact T|]; exists []; split; [constructor|apply marked_nil]|].
  destruct k as [| | | | | | |n g| | |]; try discriminate H. destruct (d_objects d n g) as [| | | | | | | | |m|] eqn:E; try discriminate H.
  apply rbind_ok in H. destruct H as (l & Hl & H). apply rbind_ok in H. destruct H as (d1 & H1 & H). apply rbind_ok in H. destruct H as (d2 & H2 & H3).
  assert (K : kids_of (d_objects d) m l).
  { unfold kids_of. destruct (sm_find (str "Kids") m) as [v|]; [|apply okay in Hl; congruence].
    unfold target in Hl. destruct v as [| | | | | | |a b|l0| |]; try discriminate Hl; [|left; apply okay in Hl; congruence].
    right. exists a, b. split; [reflexivity|]. destruct (d_objects d a b); try discriminate Hl. apply okay in Hl; congruence. }
  destruct (IH d l d1 T H1) as (S1 & below & N1 & M1). destruct (mark_page_spec d1 n g d2 (proj2 S1) H2) as (S2 & M2).
  destruct (IH d2 rest d' (proj2 S2) H3) as (S3 & others & N3 & M3).
  assert (S12 : steady fref (d_objects d) (d_objects d2)) by (eapply steady_trans; eassumption).
  split; [eapply steady_trans; eassumption|]. exists (below ++ (n, g) :: others).
  split; [eapply pn_cons; [exact E|exact K|exact N1|eapply steady_nodes; eassumption]|].
  eapply marked_app; [exact M1|]. apply (marked_app _ _ _ _ [(n, g)] others _ (d_bodies d2)); [apply (marked_steady _ _ _ _ _ _ _ _ _ S1 M2)|apply (marked_steady _ _ _ _ _ _ _ _ _ S12 M3)].
Qed.
End Marks.

(** ** the nodes are given by the document *)
Lemma kids_unique : forall f m l1 l2, kids_of f m l1 -> kids_of f m l2 -> l1 = l2.
Proof.
  intros f m l1 l2 H1 H2. unfold kids_of in *. destruct (sm_find (str "Kids") m) as [v|]; [|congruence].
  destruct H1 as [->|(a & b & -> & H1)], H2 as [H2|(a2 & b2 & H2 & H3)]; congruence.
Qed.
Lemma nodes_unique : forall f kids n1, page_nodes f kids n1 -> forall n2, page_nodes f kids n2 -> n1 = n2.
Proof.
  intros f kids n1 H. induction H as [|n g m l below rest others E K _ IH1 _ IH2]; intros n2 H2; inversion H2 as [|n0 g0 m0 l0 below0 rest0 others0 E0 K0 P1 P2]; subst; [reflexivity|].
  assert (m0 = m) by congruence. subst m0. assert (l0 = l) by (eapply kids_unique; eassumption). subst l0. f_equal; [apply IH1; exact P1|]. f_equal. apply IH2; exact P2.
Qed.

Lemma root_kids_mark : forall real font text image fuel d trailer kids, root_kids (d_objects d) trailer kids ->
  apply_watermark real font text image fuel d trailer = mark_nodes real font text image fuel d kids.
Proof.
  intros real font text image fuel d trailer kids (r & root & p & pages & k & F1 & R & F2 & P & F3 & K). unfold apply_watermark. rewrite F1.
  replace (target d r) with (ODict root) by (destruct R as [->|(a & b & -> & R)]; [reflexivity|symmetry; exact R]). rewrite F2.
  replace (target d p) with (ODict pages) by (destruct P as [->|(a & b & -> & P)]; [reflexivity|symmetry; exact P]). rewrite F3.
  replace (target d k) with (OArr kids) by (destruct K as [->|(a & b & -> & K)]; [reflexivity|symmetry; exact K]). reflexivity.
Qed.
Lemma apply_steady : forall real font text image fuel d trailer d', (forall a b, tidy (d_objects d a b)) ->
  apply_watermark real font text image fuel d trailer = Ok d' -> steady (ORef (fst font) (snd font)) (d_objects d) (d_objects d').
Proof.
  intros real font text image fuel d trailer d' T H. unfold apply_watermark in H.
  destruct (sm_find (str "Root") trailer) as [r|]; [|apply okay in H; subst; apply steady_refl; exact T].
  destruct (target d r) as [| | | | | | | | |root|]; try discriminate H. destruct (sm_find (str "Pages") root) as [p|]; [|apply okay in H; subst; apply steady_refl; exact T].
  destruct (target d p) as [| | | | | | | | |pages|]; try discriminate H. destruct (sm_find (str "Kids") pages) as [k|]; [|apply okay in H; subst; apply steady_refl; exact T].
  destruct (target d k) as [| | | | | | | |kids| |]; try discriminate H. exact (proj1 (mark_nodes_spec real font text image fuel d kids d' T H)).
Qed.

(** ** the resources of a page that was marked *)
Definition equipped (f : objects_of) (p : N * N) : Prop :=
  exists m v, f (fst p) (snd p) = ODict m /\ sm_find (str "Resources") m = Some v /\
    forall rs, v = ODict rs -> exists w, sm_find (str "Font") rs = Some w /\ forall fs, w = ODict fs -> sm_find mark_font fs <> None.

Lemma equipped_steady : forall font f f' p, steady font f f' -> equipped f p -> equipped f' p.
Proof.
  intros font f f' [n g] S (m & v & E & F & H). cbn [fst snd] in *. assert (G := proj1 S n g). rewrite E in G. destruct (grown_dict _ _ _ _ G) as (m' & E').
  rewrite E' in G. assert (X := grown_find _ _ _ _ (str "Resources") (str_bytes _) G). rewrite F in X. destruct (sm_find (str "Resources") m') as [v'|] eqn:F'; [|contradiction].
  exists m', v'. cbn [fst snd]. split; [exact E'|]. split; [exact F'|]. intros rs' ->. destruct (grown_back _ _ _ _ X) as (rs & ->).
  destruct (H rs eq_refl) as (w & Fw & Hw). assert (Y := grown_find _ _ _ _ (str "Font") (str_bytes _) X). rewrite Fw in Y.
  destruct (sm_find (str "Font") rs') as [w'|]; [|contradiction]. exists w'. split; [reflexivity|]. intros fs' ->. destruct (grown_back _ _ _ _ Y) as (fs & ->).
  specialize (Hw fs eq_refl). assert (Z := grown_find _ _ _ _ mark_font mark_font_bytes Y). destruct (sm_find mark_font fs); [|congruence].
  destruct (sm_find mark_font fs'); [discriminate|contradiction].
Qed.

Definition has_contents (f : objects_of) (p : N * N) : Prop := exists m v, f (fst p) (snd p) = ODict m /\ sm_find (str "Contents") m = Some v.
Lemma contents_steady : forall font f f' p, steady font f f' -> has_contents f p -> has_contents f' p.
Proof.
  intros font f f' [n g] S (m & v & E & F). cbn [fst snd] in *. destruct contents_fixed as (K1 & K2 & K3).
  destruct (fixed_key _ _ _ _ _ _ (str "Contents") S K1 K2 K3 E) as (m' & E' & X). rewrite F in X.
  destruct v; try (exists m'; eexists; split; [exact E'|exact X]). destruct X as [x X]. exists m'. eexists. split; [exact E'|exact X].
Qed.

Lemma mark_page_equips : forall real font text image d n g d', (forall a b, tidy (d_objects d a b)) -> mark_page real font text image d n g = Ok d' ->
  has_contents (d_objects d) (n, g) -> equipped (d_objects d') (n, g).
Proof.
  intros real font text image d n g d' T H (m & v & E & F). cbn [fst snd] in E. unfold mark_page in H. rewrite E in H.
  apply rbind_ok in H. destruct H as (_ & _ & H). apply rbind_ok in H. destruct H as (box & _ & H). unfold sm_contains in H. rewrite F in H.
  apply rbind_ok in H. destruct H as ([d1 pl1] & C1 & H). apply rbind_ok in H. destruct H as ([d2 pl2] & C2 & H).
  set (fref := ORef (fst font) (snd font)).
  destruct (child_steady fref d (n, g, []) (str "Resources") d1 pl1 0 T) as (S1 & _ & P1 & m1 & v1 & x1 & D1 & F1 & X1 & V1); [split; [constructor|cbn; lia]|lia|left; reflexivity|exact C1|].
  destruct (child_steady fref d1 pl1 (str "Font") d2 pl2 1 (proj2 S1) P1) as (S2 & _ & P2 & m2 & v2 & x2 & D2 & F2 & X2 & V2); [lia|right; left; reflexivity|exact C2|].
  destruct (add_font_steady font d2 pl2 (proj2 S2) P2) as (S3 & _ & A3). set (d3 := add_font font d2 pl2) in *.
  assert (Q : equipped (d_objects d3) (n, g)).
  { destruct V1 as [[-> ->]|(a & b & -> & ->)].
    2:{ apply (equipped_steady fref (d_objects d1)); [eapply steady_trans; eassumption|]. unfold dict_at in D1. destruct (d_objects d1 n g) eqn:E1; try discriminate D1.
        cbn [sub_dict] in D1. injection D1 as ->. exists m1, (ORef a b). cbn [fst snd]. split; [exact E1|]. split; [exact F1|]. discriminate. }
    cbn [fst snd app] in *. destruct V2 as [[-> ->]|(a & b & -> & ->)].
    - cbn [fst snd app] in *. destruct (A3 _ X2) as (fs & Y & Z). unfold dict_at in Y. destruct (d_objects d3 n g) as [| | | | | | | | |mm|] eqn:E3; try discriminate Y.
      cbn [sub_dict] in Y. destruct (sm_find (str "Resources") mm) as [w|] eqn:Fr; [|discriminate Y]. destruct w as [| | | | | | | | |rs|]; try discriminate Y.
      destruct (sm_find (str "Font") rs) as [w|] eqn:Ff; [|discriminate Y]. destruct w as [| | | | | | | | |fs0|]; try discriminate Y.
      exists mm, (ODict rs). cbn [fst snd]. split; [exact E3|]. split; [exact Fr|]. intros rs0 Er. assert (rs0 = rs) by congruence. subst rs0.
      eexists. split; [exact Ff|]. intros fs1 Ef. congruence.
    - apply (equipped_steady fref (d_objects d2)); [exact S3|]. unfold dict_at in D2. destruct (d_objects d2 n g) as [| | | | | | | | |mm|] eqn:E2; try discriminate D2.
      cbn [sub_dict] in D2. destruct (sm_find (str "Resources") mm) as [w|] eqn:Fr; [|discriminate D2]. destruct w as [| | | | | | | | |rs|]; try discriminate D2.
      exists mm, (ODict rs). cbn [fst snd]. split; [exact E2|]. split; [exact Fr|]. intros rs0 Er. assert (rs0 = m2) by congruence. subst rs0.
      eexists. split; [exact F2|]. discriminate. }
  destruct (d_objects d3 n g) as [| | | | | | | | |m3|] eqn:E3; try discriminate H. destruct (sm_find (str "Contents") m3) as [w|] eqn:F3; [|discriminate H].
  assert (EO : d_objects d' = d_objects d3).
  { assert (ME : forall bx x y, mark_ends real text image d3 bx x y = Ok d' -> d_objects d' = d_objects d3).
    { intros bx x y Hm. unfold mark_ends in Hm. apply rbind_ok in Hm. destruct Hm as (c & _ & Hm). apply okay in Hm. subst. reflexivity. }
    assert (MA : forall l, match all_streams d3 l with Some (x :: r) => mark_ends real text image d3 box x (last r x) | _ => Ok d3 end = Ok d' -> d_objects d' = d_objects d3).
    { intros l Hm. destruct (all_streams d3 l) as [[|x r]|]; [apply okay in Hm; subst; reflexivity|eapply ME; exact Hm|apply okay in Hm; subst; reflexivity]. }
    unfold mark_contents in H. destruct w; try (apply okay in H; subst; reflexivity); [|eapply MA; exact H].
    match type of H with context [d_objects d3 ?a ?b] => destruct (d_objects d3 a b) end; try (apply okay in H; subst; reflexivity); [eapply MA; exact H|eapply ME; exact H]. }
  rewrite EO. exact Q.
Qed.

Lemma mark_nodes_equips : forall real font text image fuel d kids d' nodes, (forall a b, tidy (d_objects d a b)) -> mark_nodes real font text image fuel d kids = Ok d' ->
  page_nodes (d_objects d) kids nodes -> forall p, In p nodes -> has_contents (d_objects d) p -> equipped (d_objects d') p.
Proof.
  intros real font text image. induction fuel as [|fuel IH]; intros d kids d' nodes T H P p Hp Hc; cbn [mark_nodes] in H; [discriminate H|].
  inversion P as [|n g m l below rest others E K P1 P2]; subst; [destruct Hp|]. rewrite E in H.
  apply rbind_ok in H. destruct H as (l0 & Hl & H). apply rbind_ok in H. destruct H as (d1 & H1 & H). apply rbind_ok in H. destruct H as (d2 & H2 & H3).
  assert (K0 : kids_of (d_objects d) m l0).
  { unfold kids_of. destruct (sm_find (str "Kids") m) as [v|]; [|apply okay in Hl; congruence].
    unfold target in Hl. destruct v as [| | | | | | |a b|l1| |]; try discriminate Hl; [|left; apply okay in Hl; congruence].
    right. exists a, b. split; [reflexivity|]. destruct (d_objects d a b); try discriminate Hl. apply okay in Hl; congruence. }
  assert (l0 = l) by (eapply kids_unique; eassumption). subst l0.
  destruct (mark_nodes_spec real font text image fuel d l d1 T H1) as (S1 & _). destruct (mark_page_spec real font text image d1 n g d2 (proj2 S1) H2) as (S2 & _).
  destruct (mark_nodes_spec real font text image fuel d2 rest d' (proj2 S2) H3) as (S3 & others' & N3 & _).
  assert (S12 : steady (ORef (fst font) (snd font)) (d_objects d) (d_objects d2)) by (eapply steady_trans; eassumption).
  assert (others' = others) by (eapply nodes_unique; [eapply steady_nodes; [exact S12|exact N3]|exact P2]). subst others'.
  apply in_app_iff in Hp. destruct Hp as [Hp|[<-|Hp]].
  - eapply equipped_steady; [exact S3|]. eapply equipped_steady; [exact S2|]. eapply IH; eassumption.
  - eapply equipped_steady; [exact S3|]. eapply mark_page_equips; [exact (proj2 S1)|exact H2|]. eapply contents_steady; eassumption.
  - eapply (IH d2 rest d' others (proj2 S2) H3 N3 p Hp). eapply contents_steady; eassumption.
Qed.

(** ** pages whose streams are their own *)
Lemma same_ref_eq : forall x y, same_ref x y = true <-> x = y.
Proof. intros [a b] [c e]. unfold same_ref. cbn [fst snd]. rewrite andb_true_iff, !N.eqb_eq. split; [intros [-> ->]; reflexivity|intros H; split; congruence]. Qed.
Lemma filter_none : forall (A : Type) (f : A -> bool) l, (forall q, In q l -> f q = false) -> filter f l = [].
Proof. intros A f l H. induction l as [|a l IH]; [reflexivity|]. cbn [filter]. rewrite H by (left; reflexivity). apply IH. intros q Hq. apply H. right; exact Hq. Qed.
Lemma filter_only : forall (A : Type) (f : A -> bool) l p, NoDup l -> In p l -> (forall q, In q l -> (f q = true <-> q = p)) -> filter f l = [p].
Proof.
  intros A f l p. induction l as [|a l IH]; intros N I H; [destruct I|]. inversion N as [|? ? Na N']; subst. cbn [filter].
  assert (Z : ~ In p l -> filter f l = []).
  { intros Hn. apply filter_none. intros q Hq. apply not_true_is_false. intros X. apply H in X; [|right; exact Hq]. subst. contradiction. }
  destruct (f a) eqn:Ea.
  - apply H in Ea; [|left; reflexivity]. subst a. f_equal. apply Z. exact Na.
  - destruct I as [->|I]; [exfalso; assert (X : f p = true) by (apply H; [left; reflexivity|reflexivity]); congruence|].
    apply IH; [exact N'|exact I|]. intros q Hq. apply H. right; exact Hq.
Qed.
Lemma last_cons : forall (A : Type) (r : list A) x y, last (y :: r) x = last r y.
Proof.
  intros A. induction r as [|z r IH]; intros x y; [reflexivity|]. change (last (y :: z :: r) x) with (last (z :: r) x). rewrite !IH. reflexivity.
Qed.
Lemma last_in : forall (A : Type) (r : list A) x, In (last r x) (x :: r).
Proof. intros A. induction r as [|y r IH]; intros x; [left; reflexivity|]. rewrite last_cons. right. apply IH. Qed.

Lemma joined_marked : forall b b' t pre r x, NoDup (x :: r) ->
  (forall s, In s (x :: r) -> b' (fst s) (snd s) = (if same_ref x s then pre else []) ++ b (fst s) (snd s) ++ (if same_ref (last r x) s then t else [])) ->
  joined b' (x :: r) = pre ++ joined b (x :: r) ++ t.
Proof.
  intros b b' t pre r. revert pre. induction r as [|y r IH]; intros pre x N H.
  - cbn [joined last]. rewrite (H x) by (left; reflexivity). cbn [last]. assert (E : same_ref x x = true) by (apply same_ref_eq; reflexivity). rewrite E. reflexivity.
  - inversion N as [|? ? Nx Ny]; subst. change (joined b' (x :: y :: r)) with (b' (fst x) (snd x) ++ [10] ++ joined b' (y :: r)).
    change (joined b (x :: y :: r)) with (b (fst x) (snd x) ++ [10] ++ joined b (y :: r)).
    assert (L := last_cons _ r x y).
    rewrite (IH [] y Ny).
    + rewrite (H x) by (left; reflexivity). rewrite L. assert (E : same_ref x x = true) by (apply same_ref_eq; reflexivity). rewrite E.
      replace (same_ref (last r y) x) with false; [rewrite !app_nil_r, <- !app_assoc; reflexivity|].
      symmetry. apply not_true_is_false. intros X. apply same_ref_eq in X. apply Nx. rewrite <- X. apply last_in.
    + intros s Hs. rewrite (H s) by (right; exact Hs). rewrite L. replace (same_ref x s) with false; [destruct (same_ref y s); reflexivity|].
      symmetry. apply not_true_is_false. intros X. apply same_ref_eq in X. subst. contradiction.
Qed.

(** ** page trees with a cycle *)
Lemma nodes_in : forall f kids nodes, page_nodes f kids nodes -> forall a b m l, In (ORef a b) kids -> f a b = ODict m -> kids_of f m l ->
  exists nodes', page_nodes f l nodes' /\ (List.length nodes' < List.length nodes)%nat.
Proof.
  intros f kids nodes H. induction H as [|n g m0 l0 below rest others E K P1 _ P2 IH2]; intros a b m l I Ea Ka; [destruct I|].
  destruct I as [I|I].
  - assert (n = a /\ g = b) as [-> ->] by (split; congruence). assert (m0 = m) by congruence. subst m0. assert (l0 = l) by (eapply kids_unique; eassumption). subst l0.
    exists below. split; [exact P1|]. rewrite app_length. cbn [List.length]. lia.
  - destruct (IH2 a b m l I Ea Ka) as (ns & A & B). exists ns. split; [exact A|]. rewrite app_length. cbn [List.length]. lia.
Qed.
Lemma nodes_descend : forall f kids p, descends f kids p -> forall nodes m l, page_nodes f kids nodes -> f (fst p) (snd p) = ODict m -> kids_of f m l ->
  exists nodes', page_nodes f l nodes' /\ (List.length nodes' < List.length nodes)%nat.
Proof.
  intros f kids p H. induction H as [n g kids I|a b m0 l0 kids p I Ea Ka _ IH]; intros nodes m l P E K; [eapply nodes_in; eassumption|].
  destruct (nodes_in f kids nodes P a b m0 l0 I Ea Ka) as (ns & A & B). destruct (IH ns m l A E K) as (ns2 & C & D). exists ns2. split; [exact C|lia].
Qed.

(** ** documents that can be marked *)
Lemma refers_steady : forall font f f' v o, steady font f f' -> (forall m, o <> ODict m) -> is_or_refers f v o -> is_or_refers f' v o.
Proof.
  intros font f f' v o S N [->|(n & g & -> & E)]; [left; reflexivity|right]. exists n, g. split; [reflexivity|].
  rewrite (steady_other _ _ _ n g S); [exact E|]. intros m. rewrite E. apply N.
Qed.
Lemma refers_dict_steady : forall font f f' k v v' m, steady font f f' -> grown font k v v' -> is_or_refers f v (ODict m) ->
  exists m', is_or_refers f' v' (ODict m') /\ (grown font k (ODict m) (ODict m') \/ grown font 3 (ODict m) (ODict m')).
Proof.
  intros font f f' k v v' m S G [->|(n & g & -> & E)].
  - destruct (grown_dict _ _ _ _ G) as (m' & ->). exists m'. split; [left; reflexivity|left; exact G].
  - assert (v' = ORef n g) by (eapply grown_other; [exact G|discriminate]). subst v'. assert (X := proj1 S n g). rewrite E in X. destruct (grown_dict _ _ _ _ X) as (m' & E').
    rewrite E' in X. exists m'. split; [right; exists n, g; split; [reflexivity|exact E']|right; exact X].
Qed.
Lemma new_dict : forall font k key v, (key = mark_font /\ v = font) \/ (In key new_dictionaries /\ grown font k (ODict []) v) -> key <> mark_font -> exists x, v = ODict x /\ grown font k (ODict []) (ODict x).
Proof. intros font k key v [[H _]|[_ H]] N; [congruence|]. destruct (grown_dict _ _ _ _ H) as (x & ->). eauto. Qed.
Lemma font_steady : forall font f f' k rs rs', steady font f f' -> grown font (S k) (ODict rs) (ODict rs') ->
  (forall w, sm_find (str "Font") rs = Some w -> exists fs, is_or_refers f w (ODict fs)) -> forall w, sm_find (str "Font") rs' = Some w -> exists fs, is_or_refers f' w (ODict fs).
Proof.
  intros font f f' k rs rs' S G H w E. assert (X := grown_find _ _ _ _ (str "Font") (str_bytes _) G). rewrite E in X. destruct (sm_find (str "Font") rs) as [w0|] eqn:E0.
  - destruct (H _ eq_refl) as (fs & R). destruct (refers_dict_steady _ _ _ _ _ _ _ S X R) as (fs' & R' & _). eauto.
  - destruct (new_dict _ _ _ _ X) as (x & -> & _); [vm_compute; discriminate|]. exists x. left; reflexivity.
Qed.
Lemma usable_steady : forall font f f' m m', steady font f f' -> grown font 3 (ODict m) (ODict m') -> usable f m -> usable f' m'.
Proof.
  intros font f f' m m' S G H v' E. assert (X := grown_find _ _ _ _ (str "Resources") (str_bytes _) G). rewrite E in X. destruct (sm_find (str "Resources") m) as [v|] eqn:E0.
  - destruct (H _ E0) as (rs & R & F). destruct (refers_dict_steady _ _ _ _ _ _ _ S X R) as (rs' & R' & [Y|Y]); exists rs'; (split; [exact R'|]); eapply font_steady; eassumption.
  - destruct (new_dict _ _ _ _ X) as (x & -> & Y); [vm_compute; discriminate|]. exists x. split; [left; reflexivity|]. eapply font_steady; [exact S|exact Y|]. discriminate.
Qed.
Lemma type_fixed : all_bytes (str "Type") /\ str "Type" <> mark_font /\ ~ In (str "Type") new_dictionaries.
Proof. split; [apply str_bytes|]. split; [vm_compute; discriminate|]. vm_compute. intuition discriminate. Qed.
Lemma number_steady : forall font f f' v, steady font f f' -> is_number f v -> is_number f' v.
Proof. intros font f f' v S [[z H]|(neg & m & p & H)]; [left; exists z|right; exists neg, m, p]; (eapply refers_steady; [exact S|discriminate|exact H]). Qed.
Lemma range_steady : forall real font f f' v z, steady font f f' -> in_range real f v z -> in_range real f' v z.
Proof.
  intros real font f f' v z S [[x [H L]]|(neg & m & p & x & H & L)]; [left; exists x|right; exists neg, m, p, x]; (split; [eapply refers_steady; [exact S|discriminate|exact H]|exact L]).
Qed.

Lemma same_value : forall font f f' n g m m' key v', steady font f f' -> all_bytes key /\ key <> mark_font /\ ~ In key new_dictionaries ->
  f n g = ODict m -> f' n g = ODict m' -> sm_find key m' = Some v' -> exists v, sm_find key m = Some v /\ ((exists x, v = ODict x) \/ v' = v).
Proof.
  intros font f f' n g m m' key v' S (K1 & K2 & K3) E E' F. destruct (fixed_key _ _ _ _ _ _ key S K1 K2 K3 E) as (m1 & E1 & X). assert (m1 = m') by congruence. subst m1.
  destruct (sm_find key m) as [v|]; [|congruence]. exists v. split; [reflexivity|]. destruct v; try (right; congruence). left; eauto.
Qed.
Lemma ready_steady : forall real font f f' p, steady font f f' -> ready real f p -> ready real f' p.
Proof.
  intros real font f f' [n g] S (m & E & H1 & H2 & H3). cbn [fst snd] in E. assert (G := proj1 S n g). rewrite E in G. destruct (grown_dict _ _ _ _ G) as (m' & E'). rewrite E' in G.
  exists m'. cbn [fst snd]. split; [exact E'|]. split; [|split].
  - intros v' F. destruct (same_value _ _ _ _ _ _ _ _ _ S type_fixed E E' F) as (v & Fv & D). destruct (H1 v Fv) as (t & R).
    destruct D as [[x ->]| ->]; [destruct R as [R|(? & ? & R & _)]; discriminate R|]. exists t. eapply refers_steady; [exact S|discriminate|exact R].
  - intros v' F. destruct (same_value _ _ _ _ _ _ _ _ _ S box_fixed E E' F) as (v & Fv & D). destruct (H2 v Fv) as (l & R & Q).
    destruct D as [[x ->]| ->]; [destruct R as [R|(? & ? & R & _)]; discriminate R|]. exists l. split; [eapply refers_steady; [exact S|discriminate|exact R]|].
    intros a b c e El. destruct (Q a b c e El) as (Q1 & Q2 & Q3 & Q4). split; [eapply number_steady; eassumption|]. split; [eapply number_steady; eassumption|].
    split; eapply range_steady; eassumption.
  - eapply usable_steady; eassumption.
Qed.

Lemma refers_target : forall d v o, is_or_refers (d_objects d) v o -> (forall n g, o <> ORef n g) -> target d v = o.
Proof. intros d v o [->|(n & g & -> & E)] N; [|exact E]. unfold target. destruct o; try reflexivity. exfalso; eapply N; reflexivity. Qed.

Lemma child_succeeds : forall d pl key m k, (forall n g, tidy (d_objects d n g)) -> path_ok pl k -> (k <= 2)%nat -> In key new_dictionaries -> dict_at d pl = Some m ->
  (forall v, sm_find key m = Some v -> exists x, is_or_refers (d_objects d) v (ODict x)) -> exists d1 pl1, child d pl key = Ok (d1, pl1).
Proof.
  intros d pl key m k T [HB HL] Hk Hin D H. assert (Hkey := new_keys_bytes _ Hin). unfold child. rewrite D. unfold sm_contains. destruct (sm_find key m) as [v|] eqn:F.
  - rewrite D, F. destruct (H v eq_refl) as (x & [->|(a & b & -> & E)]); [destruct pl as [[n g] path]; eauto|rewrite E; eauto].
  - assert (Tm := dict_at_tidy _ _ _ T HB D).
    destruct (set_at_steady (ORef 0 0) d pl m (sm_insert key (ODict []) m) T) as (_ & B & _); [split; [exact HB|lia]|exact D| | |].
    + apply insert_grown; [exact Tm|exact Hkey|exact F|]. right. split; [exact Hin|apply grown_refl].
    + apply tidy_insert; [exact Tm|exact Hkey|apply tidy_nil].
    + rewrite B. destruct (tidy_dict _ Tm) as (X1 & X2 & _). rewrite sm_find_insert by assumption. rewrite F. destruct (list_eq_dec N.eq_dec key key); [|congruence].
      destruct pl as [[n g] path]; eauto.
Qed.

Lemma is_number_target : forall d v, is_number (d_objects d) v -> (match target d v with OInt _ | OReal _ _ _ => Ok tt | _ => Throw EConversion end) = Ok tt.
Proof. intros d v [[z H]|(neg & m & p & H)]; rewrite (refers_target _ _ _ H) by discriminate; reflexivity. Qed.
Lemma in_range_number : forall real d v least, in_range real (d_objects d) v least -> exists z, box_number real d v = Ok z /\ (- 2 ^ 63 + least <= z)%Z.
Proof.
  intros real d v least [[z [H L]]|(neg & m & p & z & H & E & L)]; exists z; unfold box_number; rewrite (refers_target _ _ _ H) by discriminate; auto.
Qed.
Lemma corner_succeeds : forall real d box,
  (forall a b c e, box = Some [a; b; c; e] -> is_number (d_objects d) a /\ is_number (d_objects d) b /\ in_range real (d_objects d) c 60 /\ in_range real (d_objects d) e 45) ->
  exists c, corner real d box = Ok c.
Proof.
  intros real d box H. unfold corner. destruct box as [[|a [|b [|c [|e [|]]]]]|]; try (eexists; reflexivity).
  destruct (H a b c e eq_refl) as (H1 & H2 & H3 & H4). rewrite (is_number_target _ _ H1), (is_number_target _ _ H2). cbn [rbind].
  destruct (in_range_number _ _ _ _ H3) as (x & Ex & Lx). destruct (in_range_number _ _ _ _ H4) as (y & Ey & Ly). rewrite Ex, Ey. cbn [rbind].
  replace ((x - 60 <? - 2 ^ 63) || (y - 45 <? - 2 ^ 63))%Z with false; [eexists; reflexivity|]. symmetry. apply orb_false_iff. split; apply Z.ltb_ge; lia.
Qed.

Lemma mark_page_succeeds : forall real font text image d n g, (forall a b, tidy (d_objects d a b)) -> ready real (d_objects d) (n, g) ->
  exists d', mark_page real font text image d n g = Ok d'.
Proof.
  intros real font text image d n g T (m & E & H1 & H2 & H3). assert (Rd : ready real (d_objects d) (n, g)) by (exists m; auto). cbn [fst snd] in E. unfold mark_page. rewrite E.
  assert (X1 : (match sm_find (str "Type") m with None => Ok tt | Some v => match target d v with OName _ => Ok tt | _ => Throw EConversion end end) = Ok tt).
  { destruct (sm_find (str "Type") m) as [v|]; [|reflexivity]. destruct (H1 v eq_refl) as (t & R). rewrite (refers_target _ _ _ R) by discriminate. reflexivity. }
  rewrite X1. cbn [rbind]. clear X1.
  assert (X2 : exists box, (match sm_find (str "MediaBox") m with None => Ok None | Some v => match target d v with OArr l => Ok (Some l) | _ => Throw EConversion end end) = Ok box /\
     forall a b c e, box = Some [a; b; c; e] -> is_number (d_objects d) a /\ is_number (d_objects d) b /\ in_range real (d_objects d) c 60 /\ in_range real (d_objects d) e 45).
  { destruct (sm_find (str "MediaBox") m) as [v|]; [|exists None; split; [reflexivity|discriminate]]. destruct (H2 v eq_refl) as (l & R & Q). rewrite (refers_target _ _ _ R) by discriminate.
    exists (Some l). split; [reflexivity|]. intros a b c e El. apply Q. congruence. }
  destruct X2 as (box & -> & Q). cbn [rbind]. unfold sm_contains. destruct (sm_find (str "Contents") m) as [v0|] eqn:F; [|eexists; reflexivity].
  set (fref := ORef (fst font) (snd font)).
  destruct (child_succeeds d (n, g, []) (str "Resources") m 0 T) as (d1 & pl1 & C1); [split; [constructor|cbn; lia]|lia|left; reflexivity|unfold dict_at; rewrite E; reflexivity| |].
  { intros v Fv. destruct (H3 v Fv) as (rs & R & _). eauto. }
  rewrite C1. cbn [rbind].
  destruct (child_steady fref d (n, g, []) (str "Resources") d1 pl1 0 T) as (S1 & _ & P1 & m1 & v1 & x1 & D1 & F1 & X1 & V1); [split; [constructor|cbn; lia]|lia|left; reflexivity|exact C1|].
  destruct (ready_steady _ _ _ _ _ S1 Rd) as (mm & Em & _ & _ & U). cbn [fst snd] in Em. unfold dict_at in D1. rewrite Em in D1. cbn [sub_dict] in D1. assert (mm = m1) by congruence. subst mm. clear D1.
  destruct (child_succeeds d1 pl1 (str "Font") x1 1 (proj2 S1) P1) as (d2 & pl2 & C2); [lia|right; left; reflexivity|exact X1| |].
  { intros w Fw. destruct (U v1 F1) as (rs & R & Uf). assert (rs = x1).
    { destruct V1 as [[-> _]|(a & b & -> & ->)]; [destruct R as [R|(? & ? & R & _)]; congruence|]. destruct R as [R|(a0 & b0 & R & R1)]; [discriminate R|].
      assert (a0 = a /\ b0 = b) as [-> ->] by (split; congruence). unfold dict_at in X1. rewrite R1 in X1. cbn [sub_dict] in X1. congruence. }
    subst rs. apply Uf; exact Fw. }
  rewrite C2. cbn [rbind].
  destruct (child_steady fref d1 pl1 (str "Font") d2 pl2 1 (proj2 S1) P1) as (S2 & _ & P2 & _); [lia|right; left; reflexivity|exact C2|].
  destruct (add_font_steady font d2 pl2 (proj2 S2) P2) as (S3 & _ & _). set (d3 := add_font font d2 pl2) in *.
  assert (S : steady fref (d_objects d) (d_objects d3)) by (eapply steady_trans; [eapply steady_trans; eassumption|exact S3]).
  destruct (contents_steady fref _ _ (n, g) S) as (m3 & w & E3 & F3); [exists m, v0; split; assumption|]. cbn [fst snd] in E3. rewrite E3, F3.
  assert (ME : forall x y, exists d', mark_ends real text image d3 box x y = Ok d').
  { intros x y. unfold mark_ends. match goal with |- context [corner real ?dd box] => destruct (corner_succeeds real dd box) as (c & ->) end; [|cbn [rbind]; eauto].
    cbn [put_body d_objects]. intros a b c e Eb. destruct (Q a b c e Eb) as (Q1 & Q2 & Q3 & Q4).
    split; [eapply number_steady; eassumption|]. split; [eapply number_steady; eassumption|]. split; eapply range_steady; eassumption. }
  assert (MA : forall l, exists d', match all_streams d3 l with Some (x :: r) => mark_ends real text image d3 box x (last r x) | _ => Ok d3 end = Ok d').
  { intros l. destruct (all_streams d3 l) as [[|x r]|]; [eauto|apply ME|eauto]. }
  unfold mark_contents. destruct w as [| | | | | | |a b|l| |]; try (eexists; reflexivity); [|apply MA].
  destruct (d_objects d3 a b) as [| | | | | | | |l| |]; try (eexists; reflexivity); [apply MA|apply ME].
Qed.

Lemma mark_nodes_succeeds : forall real font text image f kids nodes, page_nodes f kids nodes -> (forall p, In p nodes -> ready real f p) ->
  exists enough, forall d fuel, steady (ORef (fst font) (snd font)) f (d_objects d) -> (enough <= fuel)%nat -> exists d', mark_nodes real font text image fuel d kids = Ok d'.
Proof.
  intros real font text image f kids nodes P. induction P as [|n g m l below rest others E K P1 IH1 P2 IH2]; intros Hr.
  - exists 1%nat. intros d [|fuel] S L; [lia|]. eexists. reflexivity.
  - destruct IH1 as (e1 & A1); [intros p Hp; apply Hr; apply in_app_iff; left; exact Hp|]. destruct IH2 as (e2 & A2); [intros p Hp; apply Hr; apply in_app_iff; right; right; exact Hp|].
    exists (Datatypes.S (e1 + e2)). intros d [|fuel] S L; [lia|]. cbn [mark_nodes]. assert (G := proj1 S n g). rewrite E in G. destruct (grown_dict _ _ _ _ G) as (m' & E'). rewrite E'.
    assert (X : (match sm_find (str "Kids") m' with None => Ok [] | Some v => match target d v with OArr l => Ok l | _ => Throw EConversion end end) = Ok l).
    { unfold kids_of in K. destruct kids_fixed as (K1 & K2 & K3). destruct (fixed_key _ _ _ _ _ _ (str "Kids") S K1 K2 K3 E) as (m1 & E1 & X). assert (m1 = m') by congruence. subst m1.
      destruct (sm_find (str "Kids") m) as [v|]; [|rewrite X, K; reflexivity]. destruct K as [->|(a & b & -> & Eab)]; rewrite X; [reflexivity|]. cbn [target].
      rewrite (steady_other _ _ _ a b S) by (rewrite Eab; discriminate). rewrite Eab. reflexivity. }
    rewrite X. cbn [rbind]. destruct (A1 d fuel S) as (d1 & H1); [lia|]. rewrite H1. cbn [rbind].
    destruct (mark_nodes_spec real font text image fuel d l d1 (proj2 S) H1) as (S1 & _).
    assert (R1 : ready real (d_objects d1) (n, g)) by (eapply ready_steady; [exact S1|]; eapply ready_steady; [exact S|]; apply Hr; apply in_app_iff; right; left; reflexivity).
    destruct (mark_page_succeeds real font text image d1 n g (proj2 S1) R1) as (d2 & H2). rewrite H2. cbn [rbind].
    destruct (mark_page_spec real font text image d1 n g d2 (proj2 S1) H2) as (S2 & _).
    apply A2; [|lia]. eapply steady_trans; [exact S|]. eapply steady_trans; eassumption.
Qed.

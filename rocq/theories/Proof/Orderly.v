(** Every dictionary the parser makes has its keys in order; what follows for documents that look the same. *)
From Coq Require Import List NArith ZArith Bool Lia String Sorted.
From Verif.Model Require Import Base Numbers SMap Object Equality Token Parser Xref Header StartXref FileWrite.
From Verif.Spec Require Import Grammar Xref FileWrite Save.
From Verif.Proof Require Import Tac SMap.
Import ListNotations.
Local Open Scope N_scope.

Inductive orderly : obj -> Prop :=
| or_leaf : forall o, match o with OArr _ | ODict _ | OStream _ _ => False | _ => True end -> orderly o
| or_arr : forall l, Forall orderly l -> orderly (OArr l)
| or_dict : forall m, sm_sorted m -> Forall (fun e => orderly (snd e)) m -> orderly (ODict m)
| or_stream : forall m data, sm_sorted m -> Forall (fun e => orderly (snd e)) m -> orderly (OStream m data).

Section Parse.
Variable d : dictionary.
Variable rl : N -> N -> res Z.

Lemma stream_orderly : forall m s o r, sm_sorted m -> Forall (fun e => orderly (snd e)) m -> read_stream_tail d rl m s = Ok (o, r) -> orderly o.
Proof.
  intros m s o r H1 H2 E.
  assert (Hrec : forall s', recover_stream d m s' = Ok (o, r) -> orderly o).
  { intros s' H. unfold recover_stream in H. apply rbind_ok in H. destruct H as ([n r'] & _ & H).
    assert (Hf : forall (a b : obj * bytes), Ok a = Ok b -> a = b) by (intros a b X; congruence).
    apply Hf in H. apply pair_equal_spec in H. destruct H as (H & _). subst o. generalize (str "Length"). intros len.
    destruct (sm_find len m) as [[]|]; try (apply or_stream; assumption).
    - apply or_stream; [apply sm_insert_sorted, sm_remove_sorted, H1|]. apply sm_insert_forall; [apply or_leaf; exact I|apply sm_remove_forall; exact H2].
    - apply or_stream; [apply sm_insert_sorted, H1|]. apply sm_insert_forall; [apply or_leaf; exact I|exact H2]. }
  unfold read_stream_tail in E. apply rbind_ok in E. destruct E as (ty & _ & E). cif_in E; [|injection E as <- _; apply or_dict; assumption].
  apply rbind_ok in E. destruct E as ([tk s1] & _ & E). apply rbind_ok in E. destruct E as ([tk2 s2] & _ & E). cif_in E; [|discriminate].
  apply rbind_ok in E. destruct E as ([z|] & _ & E); [|exact (Hrec _ E)]. cif_in E; [exact (Hrec _ E)|].
  apply rbind_ok in E. destruct E as ([tk3 s3] & _ & E). cif_in E; [injection E as <- _; apply or_stream; assumption|exact (Hrec _ E)].
Qed.
Lemma parse_orderly : forall f,
  (forall s o r, parse_obj d rl f s = Ok (o, r) -> orderly o) /\
  (forall s l r, parse_array d rl f s = Ok (l, r) -> Forall orderly l) /\
  (forall s acc m r, parse_dict d rl f s acc = Ok (m, r) -> sm_sorted acc -> Forall (fun e => orderly (snd e)) acc -> sm_sorted m /\ Forall (fun e => orderly (snd e)) m).
Proof.
  induction f as [|f (IH1 & IH2 & IH3)]; [repeat split; discriminate|]. split; [|split].
  - intros s o r E. cbn [parse_obj] in E. apply rbind_ok in E. destruct E as ([tk rest] & _ & E). destruct (fst tk); try discriminate; try (injection E as <- _; apply or_leaf; exact I).
    all: try (apply rbind_ok in E; destruct E as (x & Ex & E); try (injection E as <- _; apply or_leaf; exact I)).
    all: try (destruct x as [l r']).
    all: try (injection E as <- _; apply or_arr; exact (IH2 _ _ _ Ex)).
    all: try (destruct (IH3 _ _ _ _ Ex) as (A & B); [constructor|constructor|]; exact (stream_orderly _ _ _ _ A B E)).
    + unfold read_reference in E. apply rbind_ok in E. destruct E as ([t1 r1] & _ & E). cif_in E; [|injection E as <- _; apply or_leaf; exact I].
      apply rbind_ok in E. destruct E as (gen & _ & E). apply rbind_ok in E. destruct E as ([t2 r2] & _ & E). cif_in E; [|injection E as <- _; apply or_leaf; exact I].
      apply rbind_ok in E. destruct E as (num & _ & E). apply rbind_ok in E. destruct E as (g & _ & E). injection E as <- _. apply or_leaf. exact I.
    + injection E as <- _. unfold create_real in Ex. destruct (real_parts _) as [[neg ip] fp]. destruct (take_digits _ _ _ _) as [m [|n]]; [discriminate|]. injection Ex as <-. apply or_leaf. exact I.
  - intros s l r E. cbn [parse_array] in E. apply rbind_ok in E. destruct E as ([tk rest] & _ & E). cif_in E; [injection E as <- _; constructor|].
    apply rbind_ok in E. destruct E as ([o r1] & Eo & E). cif_in E; [discriminate|]. apply rbind_ok in E. destruct E as ([l' r2] & El & E). injection E as <- _. constructor; [exact (IH1 _ _ _ Eo)|exact (IH2 _ _ _ El)].
  - intros s acc m r E Hs Ha. cbn [parse_dict] in E. apply rbind_ok in E. destruct E as ([tk rest] & _ & E). cif_in E; [injection E as <- _; auto|].
    apply rbind_ok in E. destruct E as ([k r1] & Ek & E). apply rbind_ok in E. destruct E as ([v r2] & Ev & E).
    assert (Hv := IH1 _ _ _ Ev).
    assert (Hskip : parse_dict d rl f r2 acc = Ok (m, r) -> sm_sorted m /\ Forall (fun e => orderly (snd e)) m) by (intros H; exact (IH3 _ _ _ _ H Hs Ha)).
    assert (Hput : forall n, parse_dict d rl f r2 (sm_insert n v acc) = Ok (m, r) -> sm_sorted m /\ Forall (fun e => orderly (snd e)) m).
    { intros n H. apply (IH3 _ _ _ _ H); [apply sm_insert_sorted, Hs|apply sm_insert_forall; [exact Hv|exact Ha]]. }
    destruct v; destruct k; try exact (Hskip E); (destruct (sm_contains _ _); [exact (Hskip E)|]; cbn [is_stream] in E; try discriminate E; exact (Hput _ E)).
Qed.
Lemma load_orderly : forall file e n g o, load_entry d rl file e = Ok (n, g, o) -> orderly o.
Proof.
  intros file e n g o E. unfold load_entry in E. destruct (xdata e) as [next|offset u|k i]; try discriminate. apply rbind_ok in E. destruct E as ([[[n' g'] o'] r] & E & E'). injection E' as <- <- <-.
  unfold read_indirect_object in E. do 3 (apply rbind_ok in E; destruct E as ([? ?] & _ & E)). apply rbind_ok in E. destruct E as ([o4 r4] & Ep & E).
  apply rbind_ok in E. destruct E as ([? ?] & _ & E). do 4 (apply rbind_ok in E; destruct E as (? & _ & E)). injection E as _ _ <- _. exact (proj1 (parse_orderly _) _ _ _ Ep).
Qed.
Lemma open_orderly : forall file v t o, open_file d rl file = Ok (v, t, o) -> orderly o.
Proof.
  intros file v t o E. unfold open_file in E. apply rbind_ok in E. destruct E as (v' & _ & E). apply rbind_ok in E. destruct E as (off & _ & E). apply rbind_ok in E. destruct E as ([t' o'] & E1 & E).
  unfold read_xref_at in E1. apply rbind_ok in E1. destruct E1 as (ty & _ & E1). cif_in E1; [|discriminate]. apply rbind_ok in E1. destruct E1 as ([[t1 o1] r1] & E1 & E2). injection E2 as <- <-.
  unfold read_xref_table in E1. do 3 (apply rbind_ok in E1; destruct E1 as ([? ?] & _ & E1)). apply rbind_ok in E1. destruct E1 as ([o4 r4] & Ep & E1).
  assert (Ho : orderly o4) by exact (proj1 (parse_orderly _) _ _ _ Ep). destruct o4; try discriminate. injection E1 as _ <- _. cif_in E; [discriminate|]. injection E as _ _ <-. exact Ho.
Qed.
End Parse.

Lemma store_orderly : forall rl file t n g, orderly (file_store rl file t n g).
Proof.
  intros rl file t n g. unfold file_store. destruct (entry_for n t) as [[]|]; try (apply or_leaf; exact I).
  cif; [|apply or_leaf; exact I]. destruct (load_entry _ _ _ _) as [[[n1 g1] o]|e| |] eqn:E; try (apply or_leaf; exact I). exact (load_orderly _ _ _ _ _ _ _ E).
Qed.
Lemma seen_orderly : forall f o, (forall n g, orderly (f n g)) -> orderly o -> orderly (seen_at f o).
Proof. intros f o Hf Ho. destruct o; try exact Ho. apply Hf. Qed.
Lemma orderly_dict : forall m, orderly (ODict m) -> sm_sorted m /\ Forall (fun e => orderly (snd e)) m.
Proof. intros m H. inversion H as [o C|l|m' A B|]; subst; [destruct C|auto]. Qed.
Lemma orderly_arr : forall l, orderly (OArr l) -> Forall orderly l.
Proof. intros l H. inversion H as [o C|l' A|m' A B|]; subst; [destruct C|auto]. Qed.
Lemma sorted_found : forall {V} (m : smap V) k v, sm_sorted m -> In (k, v) m -> sm_find k m = Some v.
Proof.
  induction m as [|[k' v'] m IH]; intros k v Hs Hin; [destruct Hin|]. inversion Hs as [|? ? Hs' Ha]; subst. cbn [sm_find]. destruct Hin as [E|Hin].
  - injection E as -> ->. rewrite ltb_irrefl. reflexivity.
  - rewrite Forall_forall in Ha. specialize (Ha _ Hin). cbn [fst] in Ha. rewrite Ha. destruct (buffer_ltb k k') eqn:E; [|apply IH; assumption].
    assert (X := ltb_trans _ _ _ Ha E). rewrite ltb_irrefl in X. discriminate.
Qed.
Lemma found_in : forall {V} (m : smap V) k v, sm_find k m = Some v -> exists k', In (k', v) m.
Proof.
  induction m as [|[k' v'] m IH]; intros k v E; [discriminate|]. cbn [sm_find] in E. cif_in E; [discriminate|]. cif_in E; [destruct (IH k v E) as (k2 & H); exists k2; right; exact H|]. injection E as ->. exists k'. left. reflexivity.
Qed.

Section Same.
Variable real : bool -> N -> N -> dbl.
Variables f f' : store.
Hypothesis file_orderly : forall n g, orderly (f' n g).
Lemma same_dict : forall a b m k v, same_document real f f' a b -> orderly b -> seen_at f a = ODict m -> In (k, v) m ->
  exists m' v', seen_at f' b = ODict m' /\ sm_find k m' = Some v' /\ orderly v' /\ same_document real f f' v v'.
Proof.
  intros a b m k v H Hb Ea Hin. assert (Ho := seen_orderly f' b file_orderly Hb). assert (H1 := H 1%nat). cbn [resembles] in H1. rewrite Ea in H1.
  inversion H1 as [| | |? ? w T _|? ? Nn _ _| |? m' D Em E|]; [discriminate T|destruct Nn|]. clear D Em. symmetry in E. rewrite E in Ho. destruct (orderly_dict _ Ho) as (Hs & Hall).
  assert (Hk : forall j, exists v', sm_find k m' = Some v' /\ resembles real f f' j v v').
  { intros j. assert (Hj := H (S j)). cbn [resembles] in Hj. rewrite Ea, E in Hj. inversion Hj as [| | |? ? w T _|? ? Nn _ _| |? ? (D & _)|]; [discriminate T|destruct Nn|]. subst.
    destruct (D k v Hin (fun x => x)) as (v' & Hin' & R). exists v'. split; [apply sorted_found; assumption|exact R]. }
  destruct (Hk O) as (v' & Ev & _). exists m', v'. split; [try rewrite E; reflexivity|]. split; [exact Ev|]. split.
  - destruct (found_in _ _ _ Ev) as (k' & Hin'). rewrite Forall_forall in Hall. exact (Hall _ Hin').
  - intros j. destruct (Hk j) as (v2 & Ev2 & R). rewrite Ev in Ev2. injection Ev2 as <-. exact R.
Qed.
Lemma same_arr : forall a b l, same_document real f f' a b -> orderly b -> seen_at f a = OArr l ->
  exists l', seen_at f' b = OArr l' /\ Forall orderly l' /\ Forall2 (same_document real f f') l l'.
Proof.
  intros a b l H Hb Ea. assert (Ho := seen_orderly f' b file_orderly Hb). assert (H1 := H 1%nat). cbn [resembles] in H1. rewrite Ea in H1.
  inversion H1 as [| | |? ? w T _|? ? Nn _ _|? l' D Em E| |]; [discriminate T|destruct Nn|]. clear D Em. symmetry in E. rewrite E in Ho.
  exists l'. split; [try rewrite E; reflexivity|]. split; [exact (orderly_arr _ Ho)|].
  assert (Hk : forall j, Forall2 (resembles real f f' j) l l').
  { intros j. assert (Hj := H (S j)). cbn [resembles] in Hj. rewrite Ea, E in Hj. inversion Hj as [| | |? ? w T _|? ? Nn _ _|? ? D| |]; [discriminate T|destruct Nn|]. subst. exact D. }
  clear - Hk. revert l' Hk. induction l as [|x l IH]; intros l' Hk; assert (H0 := Hk O); inversion H0 as [|? y ? l2 _ _]; subst; [constructor|]. constructor.
  - intros j. specialize (Hk j). inversion Hk; assumption.
  - apply IH. intros j. specialize (Hk j). inversion Hk; assumption.
Qed.
End Same.

(** A full save succeeds: no stage reports an error. *)
From Coq Require Import List NArith ZArith Bool Lia String Sorted Permutation.
From Verif.Model Require Import Base SMap Object Buffer Equality Token Parser Xref Header FileWrite Chain Merge Unreferenced Duplicates Save.
From Verif.Spec Require Import Strings Grammar Xref FileWrite Chain Merge Unreferenced Equality Duplicates Save.
From Verif.Proof Require Import Tac SMap Containers FileWrite Equality Duplicates Unreferenced Merge Save.
From Verif.Props Require Unreferenced FileWrite.
Import ListNotations.
Local Open Scope N_scope.

(** *** Comparing does not fail *)
Definition comparable_number (q : numeric) : Prop := match q with QSigned _ => True | QUnsigned _ => False | QReal r => exists z, dbl_to_big_int r = Ok z end.
Inductive comparable : value -> Prop :=
| co_leaf : forall v, match v with VInt _ | VReal _ | VArr _ | VDict _ | VStream _ _ => False | _ => True end -> comparable v
| co_int : forall q, comparable_number q -> comparable (VInt q)
| co_real : forall q, comparable_number q -> comparable (VReal q)
| co_arr : forall l, Forall comparable l -> comparable (VArr l)
| co_dict : forall l, Forall (fun e => comparable (snd e)) l -> comparable (VDict l)
| co_stream : forall l b, Forall (fun e => comparable (snd e)) l -> comparable (VStream l b).

Lemma integer_total : forall q, comparable_number q -> exists z, integer_value q = Ok z.
Proof. intros [z|z|r] H; [exists z; reflexivity|destruct H|exact H]. Qed.
Lemma real_total : forall q, comparable_number q -> exists r, real_value q = Ok r.
Proof. intros [z|z|r] H; [eexists; reflexivity|destruct H|eexists; reflexivity]. Qed.

Section Total.
Variable f : file_objects.
Hypothesis Hf : direct f.
Hypothesis Hc : forall n g, comparable (find_indirect f n g).
Lemma target_comparable : forall b, comparable b -> comparable (target f b).
Proof. intros b Hb. destruct b; try exact Hb. apply Hc. Qed.
Lemma items_total : forall l, Forall (fun a => forall b, comparable a -> comparable b -> exists r, equals f a b = Ok r) l -> forall l', Forall comparable l -> Forall comparable l' ->
  exists r, eq_items f l l' = Ok r.
Proof.
  induction 1 as [|x l Hx Hl IH]; intros [|y l'] H1 H2; try (eexists; reflexivity). inversion H1; inversion H2; subst. cbn [eq_items].
  destruct (Hx y) as (r & ->); [assumption..|]. cbn [rbind]. destruct r; [apply IH; assumption|eexists; reflexivity].
Qed.
Lemma entries_total : forall l, Forall (fun e => forall b, comparable (snd e) -> comparable b -> exists r, equals f (snd e) b = Ok r) l -> forall l',
  Forall (fun e => comparable (snd e)) l -> Forall (fun e => comparable (snd e)) l' -> exists r, eq_entries f l l' = Ok r.
Proof.
  induction 1 as [|[k x] l Hx Hl IH]; intros [|[k' y] l'] H1 H2; try (eexists; reflexivity). inversion H1; inversion H2; subst. cbn [eq_entries snd] in *.
  destruct (buffer_equals k k'); [|eexists; reflexivity]. destruct (Hx y) as (r & ->); [assumption..|]. cbn [rbind]. destruct r; [apply IH; assumption|eexists; reflexivity].
Qed.
Lemma equals_total : forall a b, comparable a -> comparable b -> exists r, equals f a b = Ok r.
Proof.
  induction a as [|x|q|q|n|h s|n g|l IH|l IH|l x IH] using value_ind'; intros b Ha Hb; assert (Ht := target_comparable b Hb).
  1,2,5,6: cbn [equals]; rewrite deref_target by exact Hf; cbn [rbind]; destruct (target f b); eexists; reflexivity.
  - cbn [equals]. unfold as_number. rewrite deref_target by exact Hf. cbn [rbind]. inversion Ha as [? G| | | | |]; subst; [destruct G|].
    destruct (integer_total q) as (z & E); [assumption|]. destruct (target f b) as [| |q'|q'| | | | | |]; try (eexists; reflexivity); cbn [rbind]; rewrite E; cbn [rbind];
      (destruct (integer_total q') as (z' & ->); [inversion Ht as [? G| | | | |]; subst; [destruct G|assumption]|]); eexists; reflexivity.
  - cbn [equals]. unfold as_number. rewrite deref_target by exact Hf. cbn [rbind]. inversion Ha as [? G| | | | |]; subst; [destruct G|].
    destruct (real_total q) as (z & E); [assumption|]. destruct (target f b) as [| |q'|q'| | | | | |]; try (eexists; reflexivity); cbn [rbind]; rewrite E; cbn [rbind];
      (destruct (real_total q') as (z' & ->); [inversion Ht as [? G| | | | |]; subst; [destruct G|assumption]|]); eexists; reflexivity.
  - cbn [equals]. destruct b; eexists; reflexivity.
  - change (equals f (VArr l) b) with (do d <- deref f b;; match d with VArr l' =>
      if negb (Nat.eqb (List.length l) (List.length l')) then Ok false else eq_items f l l' | _ => Ok false end).
    rewrite deref_target by exact Hf. cbn [rbind]. destruct (target f b) as [| | | | | | |l'| |]; try (eexists; reflexivity). destruct (negb _); [eexists; reflexivity|].
    inversion Ha as [? G| | | | |]; subst; [destruct G|]. inversion Ht as [? G| | | | |]; subst; [destruct G|]. apply items_total; assumption.
  - change (equals f (VDict l) b) with (do d <- deref f b;; match d with VDict l' =>
      if negb (Nat.eqb (List.length l) (List.length l')) then Ok false else eq_entries f l l' | _ => Ok false end).
    rewrite deref_target by exact Hf. cbn [rbind]. destruct (target f b) as [| | | | | | | |l'|]; try (eexists; reflexivity). destruct (negb _); [eexists; reflexivity|].
    inversion Ha as [? G| | | | |]; subst; [destruct G|]. inversion Ht as [? G| | | | |]; subst; [destruct G|]. apply entries_total; assumption.
  - change (equals f (VStream l x) b) with (do d <- deref f b;; match d with VStream l' x' =>
      do r <- (if negb (Nat.eqb (List.length l) (List.length l')) then Ok false else eq_entries f l l');;
      if r then Ok (buffer_equals x x') else Ok false | _ => Ok false end).
    rewrite deref_target by exact Hf. cbn [rbind]. destruct (target f b) as [| | | | | | | | |l' x']; try (eexists; reflexivity).
    inversion Ha as [? G| | | | |]; subst; [destruct G|]. inversion Ht as [? G| | | | |]; subst; [destruct G|].
    assert (E : exists r, (if negb (Nat.eqb (List.length l) (List.length l')) then Ok false else eq_entries f l l') = Ok r) by (destruct (negb _); [eexists; reflexivity|apply entries_total; assumption]).
    destruct E as (r & ->). cbn [rbind]. destruct r; eexists; reflexivity.
Qed.
End Total.

(** *** ... nor does merging equal objects *)
Definition fit (l : list ditem) : Prop := direct (objects l) /\ forall n g, comparable (find_indirect (objects l) n g).
Definition fit_items (l : list ditem) : Prop := Forall (fun x => comparable (d_value x) /\ forall n g, d_value x <> VRef n g) l.
Lemma fit_from : forall l, fit_items l -> fit l.
Proof.
  intros l H. unfold fit_items in H. rewrite Forall_forall in H. split.
  - apply no_reference_direct. unfold no_reference_objects. rewrite Forall_forall. intros x Hx. apply H. exact Hx.
  - intros n g. rewrite find_objects. destruct (find_item l (n, g)) as [x|] eqn:E; [|apply co_leaf; exact I]. apply find_item_some in E. apply H. apply E.
Qed.
Lemma lookup_total : forall l, fit l -> forall h v set, comparable v -> exists r, lookup l h v set = Ok r.
Proof.
  intros l (H1 & H2) h v set Hv. induction set as [|[i h'] set IH]; cbn [lookup]; [eexists; reflexivity|]. destruct (h =? h'); [|exact IH].
  destruct (equals_total (objects l) H1 H2 v (find_indirect (objects l) (fst i) (snd i)) Hv (H2 _ _)) as (r & ->). cbn [rbind]. destruct r; [eexists; reflexivity|exact IH].
Qed.
Lemma scan_total : forall hash l, fit l -> forall items uniq dups, Forall (fun x => comparable (d_value x)) items -> exists r, scan hash l items uniq dups = Ok r.
Proof.
  intros hash l Hl. induction items as [|x items IH]; intros uniq dups Hi; cbn [scan]; [eexists; reflexivity|]. inversion Hi; subst. destruct (d_comp x); [apply IH; assumption|].
  cbv zeta. destruct (lookup_total l Hl (hash_item hash x) (d_value x) uniq) as (r & ->); [assumption|]. cbn [rbind]. destruct r as [rep|]; [|apply IH; assumption].
  destruct (lookup_total l Hl (hash_item hash x) (d_value x) (map fst dups)) as (r & ->); [assumption|]. cbn [rbind]. destruct r; apply IH; assumption.
Qed.
Lemma redirect_total : forall hash l dups, fit l -> forall v, exists r, redirect_value hash l dups v = Ok r.
Proof.
  intros hash l dups Hl.
  assert (EE : forall e, Forall (fun x : bytes * value => exists r, redirect_value hash l dups (snd x) = Ok r) e -> exists r, red_entries hash dups l e = Ok r).
  { induction 1 as [|[k x] e Hx He IHe]; cbn [red_entries]; [eexists; reflexivity|]. cbn [snd] in Hx. destruct Hx as (r & ->). cbn [rbind]. destruct IHe as (t & ->). eexists. reflexivity. }
  induction v as [|x|q|q|n|h s|n g|e IH|e IH|e x IH] using value_ind'; try (eexists; reflexivity).
  - rewrite red_ref. unfold redirect_ref. destruct (lookup_total l Hl (match find_item l (n, g) with Some x => hash_item hash x | None => hash VNull end) (find_indirect (objects l) n g) (map fst dups)) as (r & E); [apply Hl|].
    cbn [fst snd]. rewrite E. cbn [rbind]. destruct r; eexists; reflexivity.
  - rewrite red_arr. assert (E : exists r, red_items hash dups l e = Ok r). { induction IH as [|x e Hx He IHe]; cbn [red_items]; [eexists; reflexivity|]. destruct Hx as (r & ->). cbn [rbind]. destruct IHe as (t & ->). eexists. reflexivity. }
    destruct E as (r & ->). eexists. reflexivity.
  - rewrite red_dict. destruct (EE e IH) as (r & ->). eexists. reflexivity.
  - rewrite red_stream. destruct (EE e IH) as (r & ->). eexists. reflexivity.
Qed.
Lemma shaped_comparable : forall v w, shaped v w -> comparable v -> comparable w.
Proof.
  assert (EE : forall l, Forall (fun e : bytes * value => forall w, shaped (snd e) w -> comparable (snd e) -> comparable w) l -> forall l',
    Forall2 (fun x y => fst x = fst y /\ shaped (snd x) (snd y)) l l' -> Forall (fun e => comparable (snd e)) l -> Forall (fun e => comparable (snd e)) l').
  { induction 1 as [|x l Hx Hl IHl]; intros l' H1 H2; inversion H1 as [|? ? ? ? (? & ?)]; subst; inversion H2; subst; constructor; auto. }
  induction v as [|x|q|q|n|h s|n g|l IH|l IH|l x IH] using value_ind'; intros w H1 H2; inversion H1; subst; try assumption; try (apply co_leaf; exact I).
  - inversion H2 as [? G| | |? G| |]; subst; [destruct G|]. apply co_arr. clear H1 H2. revert l' H0 G. induction IH as [|x l Hx Hl IHl]; intros l' A G; inversion A; subst; inversion G; subst; constructor; auto.
  - inversion H2 as [? G| | | |? G|]; subst; [destruct G|]. apply co_dict. eapply EE; eassumption.
  - inversion H2 as [? G| | | | |? ? G]; subst; [destruct G|]. apply co_stream. eapply EE; eassumption.
Qed.
Lemma shaped_reference : forall v w, shaped v w -> (forall n g, v <> VRef n g) -> forall n g, w <> VRef n g.
Proof. intros v w H Hv n g E. subst w. inversion H; subst; [apply (Hv n g); reflexivity|]. eapply Hv. reflexivity. Qed.
Lemma redirect_items_total : forall hash dups rest before, fit_items (before ++ rest) -> exists l', redirect_items hash dups before rest = Ok l' /\ fit_items l'.
Proof.
  intros hash dups. induction rest as [|x rest IH]; intros before H; cbn [redirect_items].
  - exists before. rewrite app_nil_r in H. auto.
  - destruct (redirect_total hash (before ++ x :: rest) dups (fit_from _ H) (d_value x)) as (v & Ev). rewrite Ev. cbn [rbind]. apply IH. rewrite <- app_assoc. cbn [app].
    unfold fit_items in *. apply Forall_app in H. destruct H as (H1 & H2). inversion H2 as [|? ? (A & B) H3]; subst. apply Forall_app. split; [exact H1|]. constructor; [|exact H3].
    apply redirect_shaped in Ev. cbn [set_value d_value]. split; [eapply shaped_comparable; eassumption|eapply shaped_reference; eassumption].
Qed.
Lemma fit_keep : forall hash l, fit_items l -> fit_items (map (keep_hash hash) l).
Proof. intros hash l H. unfold fit_items in *. rewrite Forall_forall in *. intros y Hy. apply in_map_iff in Hy. destruct Hy as (x & <- & Hx). rewrite keep_value. apply H. exact Hx. Qed.
Lemma round_total : forall hash l trailer, fit_items l -> exists r, round hash l trailer = Ok r /\ match r with Some (l', _) => fit_items l' | None => True end.
Proof.
  intros hash l trailer H. unfold round. destruct (scan_total hash l (fit_from l H) l [] []) as (dups & ->).
  { unfold fit_items in H. rewrite Forall_forall in *. intros x Hx. apply H. exact Hx. }
  cbn [rbind]. destruct dups as [|d dups]; [exists None; auto|].
  destruct (redirect_items_total hash (d :: dups) (map (keep_hash hash) l) [] (fit_keep hash l H)) as (l1 & -> & H1). cbn [rbind].
  destruct (redirect_total hash l1 (d :: dups) (fit_from l1 H1) trailer) as (t & ->). cbn [rbind]. eexists. split; [reflexivity|].
  unfold fit_items in *. rewrite Forall_forall in *. intros x Hx. apply in_release in Hx. apply H1. apply Hx.
Qed.
Lemma rounds_total : forall hash fuel l trailer, ids_distinct l -> fit_items l -> (List.length l < fuel)%nat -> exists r, rounds hash fuel l trailer = Ok r.
Proof.
  intros hash. induction fuel as [|fuel IH]; intros l trailer Hd Hfit Hlen; [lia|]. cbn [rounds]. destruct (round_total hash l trailer Hfit) as (r & E & H). rewrite E. cbn [rbind].
  destruct r as [[l' t']|]; [|eexists; reflexivity]. destruct (round_shrinks _ _ _ _ _ Hd E) as (Hd' & Hlt). apply IH; [exact Hd'|exact H|lia].
Qed.

(** *** The whole save *)
Lemma range_number : forall r, within_range r -> exists z, dbl_to_big_int r = Ok z.
Proof.
  intros [m e] H. unfold within_range in H. cbn [dm de] in H. unfold dbl_to_big_int, int_le_dbl, dbl_le_int, dbl_trunc. cbn [dm de]. cbv zeta.
  change (2 ^ 63)%Z with 9223372036854775808%Z in *. destruct (0 <=? e)%Z eqn:Ee.
  - set (P := (2 ^ e)%Z) in *. assert (HP : (0 < P)%Z) by (apply Z.pow_pos_nonneg; lia). assert (HA : Z.abs (m * P) = (Z.abs m * P)%Z) by (rewrite Z.abs_mul; f_equal; lia).
    clearbody P. replace ((- (9223372036854775808) <=? m * P) && (m * P <=? 9223372036854775808))%Z with true by (clear - H HA; lia).
    replace (m * P =? 9223372036854775808)%Z with false by (clear - H HA; lia). eexists. reflexivity.
  - set (P := (2 ^ (- e))%Z) in *. assert (HP : (0 < P)%Z) by (apply Z.pow_pos_nonneg; lia). clearbody P.
    assert (HQ : (Z.abs (Z.quot m P) < 9223372036854775808)%Z).
    { rewrite <- Z.quot_abs by lia. replace (Z.abs P) with P by lia. apply Z.quot_lt_upper_bound; [lia|exact HP|]. rewrite Z.mul_comm. exact H. }
    replace ((- (9223372036854775808) * P <=? m) && (m <=? 9223372036854775808 * P))%Z with true by (clear - H HP; lia).
    replace (Z.quot m P =? 9223372036854775808)%Z with false by (clear - HQ; lia). eexists. reflexivity.
Qed.
Lemma value_comparable : forall real o, (forall neg m p, real_inside neg m p o -> within_range (real neg m p)) -> comparable (value_of real o).
Proof.
  intros real. assert (EE : forall l, Forall (fun e : bytes * obj => (forall neg m p, real_inside neg m p (snd e) -> within_range (real neg m p)) -> comparable (value_of real (snd e))) l ->
    (forall k o neg m p, In (k, o) l -> real_inside neg m p o -> within_range (real neg m p)) -> Forall (fun e => comparable (snd e)) (map (fun e => (fst e, value_of real (snd e))) l)).
  { induction 1 as [|[k o] l Hx Hl IHl]; intros H; cbn [map]; constructor; cbn [snd fst] in *.
    - apply Hx. intros neg m p Hr. apply (H k o neg m p); [left; reflexivity|exact Hr].
    - apply IHl. intros k' o' neg m p Hin Hr. apply (H k' o' neg m p); [right; exact Hin|exact Hr]. }
  induction o as [l IH|l IH|l d IH|o Ho] using obj_induction; intros H.
  - cbn [value_of]. apply co_arr. assert (H' : forall o neg m p, In o l -> real_inside neg m p o -> within_range (real neg m p)) by (intros o neg m p Hin Hr; apply H; eapply ri_arr; eassumption). clear H.
    induction IH as [|x l Hx Hl IHl]; cbn [map]; constructor.
    + apply Hx. intros neg m p Hr. apply (H' x neg m p); [left; reflexivity|exact Hr].
    + apply IHl. intros o neg m p Hin Hr. apply (H' o neg m p); [right; exact Hin|exact Hr].
  - apply co_dict. apply EE; [exact IH|]. intros k o neg m p Hin Hr. apply H. eapply ri_dict; eassumption.
  - apply co_stream. apply EE; [exact IH|]. intros k o neg m p Hin Hr. apply H. eapply ri_stream; eassumption.
  - destruct o; try destruct Ho; cbn [value_of]; try (apply co_leaf; exact I).
    + apply co_int. exact I.
    + apply co_real. cbn [comparable_number]. apply range_number. apply H. apply ri_here.
Qed.

Theorem save_ok : forall real hash content order arrange v newest older,
  let c := newest :: older in let f := document_objects content c in
  any_order order -> any_arrangement arrange ->
  plain_tables c -> N.of_nat (S (List.length (flat_map s_entries c))) < 2 ^ 63 ->
  writable (ODict (s_trailer newest)) -> sm_find (str "XRefStm") (s_trailer newest) = None ->
  orderly_document real hash c f (ODict (s_trailer newest)) -> live_reals_within_range real f (ODict (s_trailer newest)) ->
  exists file, save_file real hash content order arrange v c = Ok file.
Proof.
  intros real hash content order arrange v newest older c f Hord Harr Hpl Hcount Htw Hxs Hod Hrange. assert (Hod' := Hod). destruct Hod' as [Hloose Hlat Hst Hsteady].
  assert (Hopt : exists r, optimize real hash content order arrange c = Ok r).
  { assert (Ht : Forall table_section c). { rewrite Forall_forall. intros s Hs. exact (proj2 Hpl s Hs). }
    assert (Hp : Forall plain_section c) by (eapply Forall_impl; [exact table_plain|exact Ht]).
    unfold optimize. destruct (merge_total (fun _ => []) (rev c)) as (m & Hm).
    { intros s e Hs _ He. apply in_rev in Hs. destruct (proj2 Hpl s Hs) as (_ & _ & _ & G). destruct (G e He) as (_ & G'). destruct (xdata e); [exact I..|destruct G']. }
    { unfold c. cbn [rev]. destruct (rev older); discriminate. }
    rewrite Hm. cbn [rbind]. destruct (merged_entries _ _ _ Hm) as (Hxs1 & _). destruct (merged_trailer_agrees newest older m Ht Hm) as (Hkind & Tsort & Tkeys & Tfind).
    change (map (fun e => (e, content e)) (s_entries m)) with (with_content content (s_entries m)). set (items1 := with_content content (s_entries m)). rewrite Hkind.
    assert (Hs1 : psorted items1) by (apply with_content_sorted; exact Hxs1).
    assert (Hh1 : forall n g, live f (ODict (s_trailer newest)) n g -> held items1 n g = f n g) by (intros n g L; apply merged_latest; [exact Hp|exact Hm|apply Hlat; exact L|apply Hloose; exact L]).
    assert (HlT : forall n g, mentions n g (ODict (s_trailer m)) -> live f (ODict (s_trailer newest)) n g).
    { intros n g Hmn. apply live_trailer. inversion Hmn as [| |? key x Hin Hmx|]; subst. assert (Hb : all_bytes key) by (unfold sm_keys_ok in Tkeys; rewrite Forall_forall in Tkeys; apply (Tkeys (key, x) Hin)).
      apply sm_find_in in Hin; [|assumption..]. rewrite Tfind in Hin by exact Hb. destruct (list_eq_dec _ key (str "Prev")); [discriminate|]. destruct (list_eq_dec _ key (str "Size")); [injection Hin as <-; inversion Hmx|].
      destruct (in_dec _ _ _); [|discriminate]. destruct (writable_parts _ Htw) as (W1 & W2 & _). apply sm_find_in in Hin; [|assumption..]. eapply Spec.Unreferenced.m_dict; eassumption. }
    assert (Hl1 : forall n g, live (held items1) (ODict (s_trailer m)) n g -> live f (ODict (s_trailer newest)) n g).
    { intros n g L. induction L as [n g Hmn|m0 gm n g _ IH Hmn]; [apply HlT; exact Hmn|]. rewrite (Hh1 m0 gm IH) in Hmn. eapply live_step; eassumption. }
    assert (Hheld : forall e o, In (e, o) items1 -> entry_in_use e = true -> held items1 (xnum e) (xgen e) = o) by (intros e o Hin Hu; apply held_holds; [exact Hs1|exists e; auto]).
    change {| u_kind := STable; u_self := None; u_items := items1; u_trailer := s_trailer m |} with (table_of items1 (s_trailer m)).
    assert (Hd : numbers_distinct [table_of items1 (s_trailer m)]). { unfold numbers_distinct. cbn [flat_map u_items table_of]. rewrite app_nil_r. apply sorted_nodup. exact Hs1. }
    assert (Hun : exists c2, remove_unreferenced (order items1) [table_of items1 (s_trailer m)] = Ok c2).
    { unfold remove_unreferenced. cbn [roots section_roots u_kind table_of rbind]. set (r := _ ++ []).
      destruct (roots_spec _ _ r Hd (incl_refl _) eq_refl) as (R1 & _).
      destruct (mark_all_spec _ Hd (S (List.length (order items1))) (order items1) r [] R1 ltac:(intros ? []) ltac:(constructor) ltac:(intros ? []) ltac:(cbn; lia)) as (u & E & _).
      rewrite E. eexists. reflexivity. }
    destruct Hun as (c2 & Hun). rewrite Hun. cbn [rbind].
    destruct (stage_unreferenced order items1 (s_trailer m) c2 Hs1 Hord Hun) as (items2 & -> & Hs2 & Hin2 & Hlive2 & _). cbn [u_items u_trailer table_of]. unfold merge_equal.
    assert (P := Harr (map (ditem_of real) (filter (fun p => entry_in_use (fst p)) items2))). set (l := arrange _) in *.
    assert (Hr : exists r, remove_duplicates hash l (value_of real (ODict (s_trailer m))) = Ok r).
    { apply rounds_total; [| |lia].
      - unfold ids_distinct. apply (Permutation_map d_id) in P. apply (Permutation_NoDup (Permutation_sym P)). rewrite map_map.
        assert (Hf := sorted_filter (fun p => entry_in_use (fst p)) items2 Hs2). apply sorted_nodup in Hf. apply (NoDup_map_inv fst). rewrite map_map. exact Hf.
      - unfold fit_items. rewrite Forall_forall. intros x Hx. apply (Permutation_in _ P) in Hx. apply in_map_iff in Hx. destruct Hx as ([e o] & <- & Hx). apply filter_In in Hx. destruct Hx as (A & B). cbn [fst] in B.
        assert (L := Hl1 _ _ (Hlive2 e o A B)). assert (Ho := Hheld e o (Hin2 _ A) B). rewrite (Hh1 _ _ L) in Ho. cbn [ditem_of d_value snd]. split.
        + apply value_comparable. intros neg m0 p Hr. apply (Hrange (xnum e) (xgen e) neg m0 p L). rewrite Ho. exact Hr.
        + intros n g E. destruct o; try discriminate E. destruct (Hst (xnum e) (xgen e) L) as (_ & G). eapply G. exact Ho. }
    destruct Hr as ([l' t'] & ->). cbn [rbind]. eexists. reflexivity. }
  destruct Hopt as ([items5 T5] & Hopt). unfold save_file. rewrite Hopt. cbn [rbind].
  destruct (optimized real hash content order arrange newest older items5 T5 Hord Harr Hpl Hcount Htw Hxs Hod Hopt) as (Hs5 & Hsave5 & _).
  apply Verif.Props.FileWrite.C21_write_succeeds; assumption.
Qed.

Theorem undeleted_save_ok : forall real hash content order arrange v newest older,
  let c := newest :: older in let f := document_objects content c in
  any_order order -> any_arrangement arrange ->
  plain_tables c -> nothing_deleted c -> N.of_nat (S (List.length (flat_map s_entries c))) < 2 ^ 63 ->
  writable (ODict (s_trailer newest)) -> sm_find (str "XRefStm") (s_trailer newest) = None ->
  stores_objects f -> no_loose_reference f (ODict (s_trailer newest)) -> hashes_steady real hash f -> reals_within_range real f ->
  exists file, save_file real hash content order arrange v c = Ok file.
Proof.
  intros real hash content order arrange v newest older c f Hord Harr Hpl Hnd Hcount Htw Hxs Hst Hloose Hsteady Hrange.
  assert (Hp : Forall plain_section c) by (rewrite Forall_forall; intros s Hs; apply table_plain; exact (proj2 Hpl s Hs)).
  apply (save_ok real hash content order arrange v newest older Hord Harr Hpl Hcount Htw Hxs); [apply undeleted_orderly; assumption|].
  intros n g neg m p _. apply Hrange.
Qed.

(** Incremental saves of changed streams with a length of their own object. *)
From Coq Require Import List NArith ZArith Bool Lia String Sorted.
From Coq Require Import List.
From Verif.Model Require Import Base Char Numbers SMap Object Token Parser Arith Containers Xref StartXref Header FileWrite Chain Merge Update SharedLength UpdateLength.
From Verif.Spec Require Import Strings Grammar Containers Xref FileWrite Chain Merge Update Conforming Written SharedLength UpdateLength.
From Verif.Proof Require Import Tac Numbers Strings Token SMap Parser Writer StreamObj Arith Xref StartXref FileWrite Containers Chain Merge Update Crash Conforming Written SharedLength.
Import ListNotations.
Local Open Scope N_scope.

(** ** the changed objects *)
Definition table_of (c : list fsection) : list (xentry * obj) := add_all (changes c) [list_head].
Lemma table_sorted : forall c, StronglySorted N.lt (map (fun p => xnum (fst p)) (table_of c)).
Proof. intros c. apply add_all_sorted. repeat constructor. Qed.
Lemma in_changed : forall c e o, In (e, o) (changed_objects c) <-> changed_live c e o.
Proof.
  intros c e o. unfold changed_objects. rewrite in_flat_map. split.
  - intros (s & Hs & H). apply in_flat_map in H. destruct H as (x & Hx & H). unfold changed_item in H. destruct x as [e' o' d]. cbn [f_dirty f_entry f_object] in H.
    destruct d; [|destruct H]. destruct (xdata e') as [|off []|] eqn:E; try destruct H as [H|[]]; try (destruct H; fail). apply pair_equal_spec in H. destruct H as [<- <-].
    exists s, off. auto.
  - intros (s & off & Hs & Hd & Hx). exists s. split; [exact Hs|]. apply in_flat_map. eexists. split; [exact Hx|]. unfold changed_item. cbn [f_dirty f_entry f_object]. rewrite Hd. left. reflexivity.
Qed.
Lemma has_listed : forall c n g o, changed_once c -> has (changed_objects c) n g o -> has (table_of c) n g o.
Proof. intros c n g o Hone (off & H). exists off. apply in_changed in H. apply changed_listed; assumption. Qed.
Lemma listed_has : forall c n g o, has (table_of c) n g o -> has (changed_objects c) n g o.
Proof.
  intros c n g o (off & H). exists off. apply in_changed. apply add_all_in in H. destruct H as [H|[H|[]]].
  - unfold changes in H. apply in_flat_map in H. destruct H as (s & Hs & H). apply in_flat_map in H. destruct H as (x & Hx & H). unfold change in H. destruct x as [e o' d]. cbn [f_dirty f_entry f_object] in H.
    destruct d; [|destruct H]. exists s, off. split; [exact Hs|]. split; [reflexivity|]. destruct (xdata e) as [next|z []|a b] eqn:E; cbn [In] in H; try (destruct H; fail); destruct H as [H|[]]; apply pair_equal_spec in H; destruct H as [H <-].
    + apply (f_equal xdata) in H. cbn [xdata] in H. discriminate H.
    + subst e. exact Hx.
    + apply (f_equal xdata) in H. rewrite E in H. discriminate H.
  - apply (f_equal fst) in H. cbn [fst list_head] in H. discriminate H.
Qed.
Lemma saveable_listed : forall c o, changed_once c -> saveable_object (changed_objects c) o -> saveable_object (table_of c) o.
Proof.
  intros c o Hone H. destruct H as [o Hw|m data Hw Hd Hl]; [apply sv_direct, Hw|]. apply sv_stream; [exact Hw|exact Hd|]. intros v Hv. destruct (Hl v Hv) as [H|(n & g & z & E & H & Hz)]; [left; exact H|right].
  exists n, g, z. split; [exact E|]. split; [apply has_listed; assumption|exact Hz].
Qed.
Lemma table_ready : forall c, changes_saveable entry_saveable (saveable_object (changed_objects c)) c -> changed_once c ->
  forall e o, In (e, o) (table_of c) -> entry_saveable e /\ (forall off, xdata e = KUsed off true -> saveable_object (table_of c) o).
Proof.
  intros c H Hone e o Hp. unfold table_of in Hp. apply add_all_in in Hp. destruct Hp as [Hp|[Hp|[]]].
  - unfold changes in Hp. apply in_flat_map in Hp. destruct Hp as (s & Hs & Hp). apply in_flat_map in Hp. destruct Hp as (x & Hx & Hp).
    destruct (change_num _ _ Hp) as (D & _ & _). specialize (H s x Hs Hx D). unfold change in Hp. rewrite D in Hp.
    destruct (xdata (f_entry x)) as [next|off []|sn i] eqn:E; try (destruct Hp as [Hp|[]]; apply pair_equal_spec in Hp; destruct Hp as [<- <-]); try (destruct Hp; fail); cbn [xdata].
    + destruct H as (A & B & C). split; [split; [exact A|split; [exact B|cbn; lia]]|discriminate].
    + destruct H as (A & B). split; [exact A|]. intros _ _. apply saveable_listed; assumption.
    + destruct H.
  - apply pair_equal_spec in Hp. destruct Hp as [<- <-]. cbn [xdata]. split; [|discriminate]. unfold entry_saveable. cbn [xnum xgen xdata]. repeat split; cbn; lia.
Qed.
Lemma table_count : forall c, (List.length (table_of c) <= List.length (flat_map f_items c) + 1)%nat.
Proof.
  intros c. assert (G := add_all_length (changes c) [list_head]). fold (table_of c) in G. cbn [List.length] in G.
  assert (G2 : (List.length (changes c) <= List.length (flat_map f_items c))%nat); [|lia].
  clear. unfold changes. induction c as [|s c IH]; [cbn; lia|]. cbn [flat_map]. rewrite !app_length.
  assert (List.length (flat_map change (f_items s)) <= List.length (f_items s))%nat; [|lia]. clear. induction (f_items s) as [|x l IH]; [cbn; lia|].
  cbn [flat_map List.length]. rewrite app_length. assert (List.length (change x) <= 1)%nat; [|lia]. unfold change. destruct (f_dirty x); [|cbn; lia].
  destruct (xdata (f_entry x)) as [|? []|]; cbn; lia.
Qed.

(** ** the new section *)
Lemma lengths_forall : forall all la lb, Forall2 (fun a b : xentry * obj => fst b = fst a /\ (used_in_use (fst a) -> resized (fun n g z => has all n g (OInt z)) (snd a) (snd b))) la lb ->
  StronglySorted N.lt (map (fun p => xnum (fst p)) all) ->
  Forall2 (fun a b : xentry * obj => fst b = fst a /\ (used_in_use (fst a) -> resized (fun n g z => has all n g (OInt z)) (snd a) (snd b) /\ text_in all (to_pdf (snd b)) (snd b))) la lb.
Proof. intros all la lb F Hs. induction F as [|a b la lb (K & C) F IH]; constructor; [|exact IH]. split; [exact K|]. intros Hu. split; [exact (C Hu)|exact (resized_text _ _ _ Hs (C Hu))]. Qed.
Lemma changes_written : forall file s r file', changes_ready s r -> write_changes file (s :: r) = Ok file' ->
  (Z.of_nat (List.length file') <= 10 ^ 10)%Z -> existsb (fun s => some_dirty (f_items s)) (s :: r) = true ->
  exists off rn more, file' = file ++ [10] ++ more /\ off < 10 ^ 10 /\ tail_of file' off /\
    written_as (resized (fun n g z => has (table_of (s :: r)) n g (OInt z))) (text_in (table_of (s :: r))) file' rn (table_of (s :: r), []) /\
    (forall k, In k [str "Root"; str "Info"; str "ID"; str "Encrypt"] -> sm_find k (r_trailer rn) = sm_find k (f_trailer s)) /\
    forall prev revs, (0 <= prev)%Z -> revisions file (Z.to_N prev) revs ->
      sm_find (str "Prev") (f_trailer s) = None /\ prev = f_offset s \/ sm_find (str "Prev") (f_trailer s) = Some (OInt prev) ->
      revisions file' off (rn :: revs).
Proof.
  intros file s r file' (U1 & U2 & U3 & U4 & U5 & U6) Hw Hlen Hany.
  destruct (incremental_as (resized (fun n g z => has (table_of (s :: r)) n g (OInt z))) (text_in (table_of (s :: r))) append_changes file s r file') as (off & rn & more & A1 & A2 & A3 & A4 & A5 & _ & A7); try assumption.
  - intros out m out' off Hm Ha Hl Hc. fold (table_of (s :: r)) in *. assert (Hready := table_ready _ U1 U2). unfold append_changes in Ha.
    destruct (set_lengths_ok (table_of (s :: r)) (table_of (s :: r)) (table_sorted _) Hready) as (l1 & E1 & F1). rewrite E1 in Ha. cbn [rbind] in Ha.
    apply (rest_conforms _ _ out (table_of (s :: r)) l1 m out' off); try assumption.
    + apply table_sorted.
    + rewrite Forall_forall. intros [e o] Hin. exact (proj1 (Hready e o Hin)).
    + apply lengths_forall; [exact F1|apply table_sorted].
    + exact (changes_links (s :: r)).
  - exists off, rn, more. auto 10.
Qed.

(** ** writing succeeds *)
Lemma collected : forall storable c, changes_saveable entry_saveable storable c -> forall t any, exists any', Update.collect c t any = Ok (add_all (changes c) t, any').
Proof.
  intros storable c Hc. assert (Gi : forall l t any, (forall x, In x l -> f_dirty x = true -> forall a b, xdata (f_entry x) <> KComp a b) -> exists p, collect_items l t any = Ok p).
  { clear. induction l as [|x l IH]; intros t any H; cbn [collect_items]; [eexists; reflexivity|]. assert (H' : forall y, In y l -> f_dirty y = true -> forall a b, xdata (f_entry y) <> KComp a b) by (intros y Hy; apply H; right; exact Hy).
    destruct (f_dirty x) eqn:D; [|apply IH, H']. unfold add_changed. specialize (H x (or_introl eq_refl) D). destruct (xdata (f_entry x)) as [|? []|a b] eqn:E; cbn [fst xdata]; try rewrite E; cbn [rbind]; try (apply IH, H').
    exfalso. exact (H a b eq_refl). }
  assert (G : forall t any, exists p, Update.collect c t any = Ok p).
  { induction c as [|s c IH]; intros t any; cbn [Update.collect]; [eexists; reflexivity|]. destruct (Gi (f_items s) t any) as ([t1 a1] & E).
    - intros x Hx D a b Ed. specialize (Hc s x (or_introl eq_refl) Hx D). rewrite Ed in Hc. exact Hc.
    - rewrite E. cbn [rbind]. apply IH. intros s' x Hs. apply Hc. right. exact Hs. }
  intros t any. destruct (G t any) as ([t' any'] & E). rewrite E. apply changes_spec in E. destruct E as [-> _]. eexists. reflexivity.
Qed.
Lemma changes_write : forall out l trailer, StronglySorted N.lt (map (fun p => xnum (fst p)) l) ->
  (forall e o, In (e, o) l -> entry_saveable e /\ (forall off, xdata e = KUsed off true -> saveable_object l o)) ->
  exists res, append_changes out l trailer = Ok res.
Proof.
  intros out l trailer Hs Hl. unfold append_changes. destruct (set_lengths_ok l l Hs Hl) as (l1 & E1 & F1). rewrite E1. cbn [rbind]. cbn zeta.
  assert (Hl1 : Forall (fun p => entry_saveable (fst p)) l1).
  { assert (Hl0 : Forall (fun p => entry_saveable (fst p)) l) by (rewrite Forall_forall; intros [e o] Hin; exact (proj1 (Hl e o Hin))).
    assert (Ek : map fst l1 = map fst l) by (clear - F1; induction F1 as [|a b la lb (K & _) F IH]; [reflexivity|]; cbn [map]; rewrite K, IH; reflexivity).
    rewrite Forall_forall in *. intros p Hp. apply (in_map fst) in Hp. rewrite Ek in Hp. apply in_map_iff in Hp. destruct Hp as (q & <- & Hq). exact (Hl0 q Hq). }
  assert (Ho := write_objects_ok l1 (N.of_nat (List.length out)) out [] eq_refl Hl1).
  destruct (write_objects None (N.of_nat (List.length out)) l1) as [body l2]. cbn [fst snd] in Ho.
  assert (Hnums : map (fun p => xnum (fst p)) l2 = map (fun p => xnum (fst p)) l).
  { rewrite (Forall2_nums _ _ _ (fun a b (H : placed _ _ _ a b) => proj1 H) Ho). refine (Forall2_nums _ _ _ _ F1). intros a b [K _]. rewrite K. reflexivity. }
  unfold write_xref_table. destruct (subsections_written (List.length (map fst l2)) (map fst l2) (le_n _)) as (txt & Etxt).
  - rewrite Forall_forall. intros e He. apply in_map_iff in He. destruct He as (p & <- & Hp).
    assert (Hi : In (xnum (fst p)) (map (fun p => xnum (fst p)) l)) by (rewrite <- Hnums; apply (in_map (fun p : xentry * obj => xnum (fst p))), Hp).
    apply in_map_iff in Hi. destruct Hi as ([e o] & <- & Hq). destruct (Hl e o Hq) as ((B & _) & _). exact B.
  - apply sorted_nums. rewrite Hnums. exact Hs.
  - rewrite Etxt. cbn [rbind]. eexists. reflexivity.
Qed.
Lemma update_writes : forall file s r, changes_ready s r -> exists file', write_changes file (s :: r) = Ok file'.
Proof.
  intros file s r (U1 & U2 & _). unfold write_changes, create_incremental. destruct (collected _ _ U1 [list_head] false) as (any & E). rewrite E. cbn [rbind].
  fold (table_of (s :: r)).
  assert (G : exists m, (if any then dict_insert (clone_trailer (as_section s)) (str "Prev") (OInt (f_offset s)) true else Ok (clone_trailer (as_section s))) = Ok m).
  { destruct any; [|eexists; reflexivity]. unfold dict_insert. cbn [negb andb]. eexists. reflexivity. }
  destruct G as (m & ->). cbn [rbind]. cbv zeta.
  destruct (changes_write (file ++ [10]) (table_of (s :: r)) (clone_trailer {| s_kind := STable; s_entries := map fst (table_of (s :: r)); s_hybrid := None; s_trailer := m |})
    (table_sorted _) (table_ready _ U1 U2)) as ([out off] & ->). cbn [rbind]. eexists. reflexivity.
Qed.

(** ** the data is part of the file *)
Lemma lengths_in : forall all l l1, set_lengths all l = Ok l1 -> forall e m d off, In (e, OStream m d) l -> xdata e = KUsed off true -> exists m', In (e, OStream m' d) l1.
Proof.
  intros all. induction l as [|[e' o'] l IH]; intros l1 H e m d off Hin Hd; [destruct Hin|]. cbn [set_lengths] in H. apply rbind_ok in H. destruct H as (x & Hx & H).
  apply rbind_ok in H. destruct H as (t & Ht & H). apply Ok_inj in H. subst l1. destruct Hin as [E|Hin]; [|destruct (IH _ Ht _ _ _ _ Hin Hd) as (m' & H); exists m'; right; exact H].
  apply pair_equal_spec in E. destruct E as [-> ->]. rewrite Hd in Hx. cbn [set_length] in Hx. destruct (sm_find (str "Length") m) as [v|].
  - apply rbind_ok in Hx. destruct Hx as (z & _ & Hx). apply rbind_ok in Hx. destruct Hx as (u & _ & Hx). apply Ok_inj in Hx. destruct (u =? _); subst x; eexists; left; reflexivity.
  - apply Ok_inj in Hx. subst x. eexists. left. reflexivity.
Qed.
Lemma object_fits : forall l pos e o off, In (e, o) l -> xdata e = KUsed off true -> (List.length (to_pdf o) <= List.length (fst (write_objects None pos l)))%nat.
Proof.
  induction l as [|[e' o'] l IH]; intros pos e o off Hin Hd; [destruct Hin|]. cbn [write_objects is_self]. destruct Hin as [E|Hin].
  - apply pair_equal_spec in E. destruct E as [-> ->]. rewrite Hd. destruct (write_objects None _ l) as [txt t']. cbn [fst]. unfold write_object. rewrite !app_length. lia.
  - destruct (xdata e') as [|? []|];
      match goal with |- context [write_objects None ?p l] => specialize (IH p e o off Hin Hd); destruct (write_objects None p l) as [txt t'] end; cbn [fst] in *; try rewrite app_length; lia.
Qed.
Lemma data_fits : forall file c file' e m d, changed_once c -> write_changes file c = Ok file' -> changed_live c e (OStream m d) -> (List.length d <= List.length file')%nat.
Proof.
  intros file c file' e m d Hone H Hch. unfold write_changes in H. apply rbind_ok in H. destruct H as ([t m1] & Hc & H). apply rbind_ok in H. destruct H as ([out off] & Ha & H). apply Ok_inj in H. subst out.
  unfold create_incremental in Hc. apply rbind_ok in Hc. destruct Hc as ([t0 any] & Hcol & Hc). apply changes_spec in Hcol. destruct Hcol as [Et _]. fold (table_of c) in Et.
  assert (t = t0). { destruct c as [|s r]; [discriminate Hc|]. apply rbind_ok in Hc. destruct Hc as (m2 & _ & Hc). apply Ok_inj in Hc. congruence. } subst t t0. clear Hc.
  assert (Hin := changed_listed _ _ _ Hone Hch). fold (table_of c) in Hin. destruct Hch as (s1 & z & _ & Hd & _).
  unfold append_changes in Ha. apply rbind_ok in Ha. destruct Ha as (l1 & Hl & Ha). destruct (lengths_in _ _ _ Hl _ _ _ _ Hin Hd) as (m' & Hin').
  assert (Hf := object_fits l1 (N.of_nat (List.length (file ++ [10]))) e (OStream m' d) z Hin' Hd). cbv zeta in Ha.
  destruct (write_objects None (N.of_nat (List.length (file ++ [10]))) l1) as [body l2]. cbn [fst] in Hf. apply rbind_ok in Ha. destruct Ha as (table & _ & Ha). apply Ok_inj in Ha. apply (f_equal fst) in Ha. cbn [fst] in Ha. subst file'.
  cbn [to_pdf] in Hf. rewrite !app_length in *. lia.
Qed.

(** ** bodies *)
Section Bodies.
Variable encode : list (bytes * obj) -> bytes -> res bytes.
Variable body : N -> N -> option bytes.
Variable l : list (xentry * obj).
(** the object with its body encoded *)
Definition encoded_as (e : xentry) (o o1 : obj) : Prop :=
  match o, body (xnum e) (xgen e) with
  | OStream m _, Some b => exists data, encode (followed l (str "DecodeParms") (followed l (str "Filter") m)) b = Ok data /\ o1 = OStream m data
  | _, _ => o1 = o
  end.
Definition item_as (x y : fentry) : Prop :=
  f_entry y = f_entry x /\ f_dirty y = f_dirty x /\ (f_dirty x = true -> encoded_as (f_entry x) (f_object x) (f_object y)).
Definition section_as (s s' : fsection) : Prop := f_offset s' = f_offset s /\ f_trailer s' = f_trailer s /\ Forall2 item_as (f_items s) (f_items s').
Lemma items_encoded : forall xs ys, encode_items encode body l xs = Ok ys -> Forall2 item_as xs ys.
Proof.
  induction xs as [|x xs IH]; intros ys H; cbn [encode_items] in H; [apply Ok_inj in H; subst ys; constructor|].
  apply rbind_ok in H. destruct H as (y & Hy & H). apply rbind_ok in H. destruct H as (t & Ht & H). apply Ok_inj in H. subst ys. constructor; [|apply IH, Ht].
  unfold encode_item in Hy. unfold item_as, encoded_as. destruct (f_object x) eqn:Eo; try (apply Ok_inj in Hy; subst y; split; [reflexivity|]; split; [reflexivity|]; intros _; rewrite Eo; reflexivity).
  destruct (body (xnum (f_entry x)) (xgen (f_entry x))) as [b|] eqn:Eb; [|apply Ok_inj in Hy; subst y; split; [reflexivity|]; split; [reflexivity|]; intros _; rewrite Eo; reflexivity].
  destruct (f_dirty x) eqn:D; [|apply Ok_inj in Hy; subst y; split; [reflexivity|]; split; [exact D|]; intros H; discriminate H].
  apply rbind_ok in Hy. destruct Hy as (d & Hd & Hy). apply Ok_inj in Hy. subst y. cbn [f_entry f_dirty f_object]. split; [reflexivity|]. split; [reflexivity|]. intros _. exists d. auto.
Qed.
Lemma sections_encoded : forall c c', encode_sections encode body l c = Ok c' -> Forall2 section_as c c'.
Proof.
  induction c as [|s c IH]; intros c' H; cbn [encode_sections] in H; [apply Ok_inj in H; subst c'; constructor|].
  apply rbind_ok in H. destruct H as (xs & Hx & H). apply rbind_ok in H. destruct H as (t & Ht & H). apply Ok_inj in H. subst c'. constructor; [|apply IH, Ht].
  split; [reflexivity|]. split; [reflexivity|]. apply items_encoded, Hx.
Qed.
Lemma Forall2_in_r : forall (A B : Type) (R : A -> B -> Prop) la lb y, Forall2 R la lb -> In y lb -> exists x, In x la /\ R x y.
Proof. intros A B R la lb y F. induction F as [|a b la lb H F IH]; intros []; [subst; exists a; split; [left; reflexivity|exact H]|]. destruct (IH H0) as (x & Hx & Hr). exists x. split; [right; exact Hx|exact Hr]. Qed.
Lemma Forall2_in_l : forall (A B : Type) (R : A -> B -> Prop) la lb x, Forall2 R la lb -> In x la -> exists y, In y lb /\ R x y.
Proof. intros A B R la lb x F. induction F as [|a b la lb H F IH]; intros []; [subst; exists b; split; [left; reflexivity|exact H]|]. destruct (IH H0) as (y & Hy & Hr). exists y. split; [right; exact Hy|exact Hr]. Qed.
Lemma live_encoded : forall c c' e o, Forall2 section_as c c' -> changed_live c e o -> exists o1, encoded_as e o o1 /\ changed_live c' e o1.
Proof.
  intros c c' e o F (s & off & Hs & Hd & Hx). destruct (Forall2_in_l _ _ _ _ _ _ F Hs) as (s' & Hs' & (_ & _ & Fi)). destruct (Forall2_in_l _ _ _ _ _ _ Fi Hx) as (y & Hy & (E1 & E2 & E3)).
  cbn [f_entry f_dirty f_object] in *. exists (f_object y). split; [exact (E3 eq_refl)|]. exists s', off. split; [exact Hs'|]. split; [exact Hd|]. destruct y as [ye yo yd]. cbn [f_entry f_dirty f_object] in *. subst ye yd. exact Hy.
Qed.
Lemma once_encoded : forall c c', Forall2 section_as c c' -> changed_once c -> changed_once c'.
Proof.
  intros c c' F U2 c1 s1 c2 i1 x1 i2 Ec Ei D. rewrite Ec in F. apply Forall2_app_inv_r in F. destruct F as (d1 & d2 & F1 & F2 & Ed). inversion F2 as [|t1 ? d3 ? Ft F3]; subst. destruct Ft as (_ & _ & Fi).
    rewrite Ei in Fi. apply Forall2_app_inv_r in Fi. destruct Fi as (j1 & j2 & G1 & G2 & Ej). inversion G2 as [|y1 ? j3 ? Gy G3]; subst. destruct Gy as (E1 & E2 & _).
    rewrite E2 in D. destruct (U2 d1 t1 d3 j1 y1 j3 eq_refl Ej D) as [V1 V2]. rewrite E1. split.
    + intros x2 Hx2 D2. destruct (Forall2_in_r _ _ _ _ _ _ G3 Hx2) as (z2 & Hz2 & (K1 & K2 & _)). rewrite K1. rewrite K2 in D2. exact (V1 z2 Hz2 D2).
    + intros s2 x2 Hs2 Hx2 D2. destruct (Forall2_in_r _ _ _ _ _ _ F3 Hs2) as (t2 & Ht2 & (_ & _ & Fi)). destruct (Forall2_in_r _ _ _ _ _ _ Fi Hx2) as (z2 & Hz2 & (K1 & K2 & _)). rewrite K1. rewrite K2 in D2. exact (V2 t2 z2 Ht2 Hz2 D2).
Qed.
Lemma ready_encoded : forall s r s' r', Forall2 section_as (s :: r) (s' :: r') -> changes_ready s r ->
  (forall e m d, changed_live (s' :: r') e (OStream m d) -> N.of_nat (List.length d) < 2 ^ 63) -> changes_ready s' r'.
Proof.
  intros s r s' r' F (U1 & U2 & U3 & U4 & U5 & U6) Hbound. assert (Hh : forall n g z, has (changed_objects (s :: r)) n g (OInt z) -> has (changed_objects (s' :: r')) n g (OInt z)).
  { intros n g z (off & H). exists off. rewrite in_changed in *. destruct (live_encoded _ _ _ _ F H) as (o1 & E & H1). unfold encoded_as in E. subst o1. exact H1. }
  assert (Fs : section_as s s') by (inversion F; assumption). destruct Fs as (S1 & S2 & _). split; [|split; [|rewrite S1, S2; split; [exact U3|split; [exact U4|split; [exact U5|]]]]].
  - intros s1 y Hs Hy Hd. destruct (Forall2_in_r _ _ _ _ _ _ F Hs) as (s0 & Hs0 & (_ & _ & Fi)). destruct (Forall2_in_r _ _ _ _ _ _ Fi Hy) as (x & Hx & (E1 & E2 & E3)).
    rewrite E2 in Hd. specialize (U1 s0 x Hs0 Hx Hd). rewrite E1. destruct (xdata (f_entry x)) as [next|off []|a b] eqn:Ed; try exact U1. destruct U1 as [A B]. split; [exact A|].
    specialize (E3 Hd). unfold encoded_as in E3. destruct B as [o Hw|m data Hw Hl Hlen].
    + replace (f_object y) with o; [apply sv_direct, Hw|]. destruct Hw; congruence.
    + assert (G : exists data', f_object y = OStream m data' /\ N.of_nat (List.length data') < 2 ^ 63).
      { destruct (body _ _) as [b|]; [|exists data; auto]. destruct E3 as (d & _ & E3). exists d. split; [exact E3|]. apply (Hbound (f_entry y) m d). exists s1, off. split; [exact Hs|]. split; [rewrite E1; exact Ed|]. destruct y as [ye yo yd]. cbn [f_entry f_object f_dirty] in *. subst. rewrite Hd in Hy. exact Hy. }
      destruct G as (data' & -> & Hl'). apply sv_stream; [exact Hw|exact Hl'|]. intros v Hv. destruct (Hlen v Hv) as [H|(n & g & z & E & H & Hz)]; [left; exact H|right]. exists n, g, z. auto.
  - exact (once_encoded _ _ F U2).
  - replace (List.length (flat_map f_items (s' :: r'))) with (List.length (flat_map f_items (s :: r))); [exact U6|]. clear - F. induction F as [|a b la lb (_ & _ & Fi) F IH]; [reflexivity|].
    cbn [flat_map]. rewrite !app_length, IH. f_equal. clear - Fi. induction Fi as [|x y lx ly H Fi IH]; [reflexivity|]. cbn [List.length]. rewrite IH. reflexivity.
Qed.
Lemma unchanged_encoded : forall c c' n, Forall2 section_as c c' -> unchanged c n -> unchanged c' n.
Proof.
  intros c c' n F Hu s1 y Hs Hy Hd. destruct (Forall2_in_r _ _ _ _ _ _ F Hs) as (s0 & Hs0 & (_ & _ & Fi)). destruct (Forall2_in_r _ _ _ _ _ _ Fi Hy) as (x & Hx & (E1 & E2 & _)).
  rewrite E1. apply (Hu s0 x Hs0 Hx). congruence.
Qed.
End Bodies.

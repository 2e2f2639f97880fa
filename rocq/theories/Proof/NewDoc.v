(** Proofs about new documents. *)
From Coq Require Import List NArith ZArith Bool Lia String Sorted.
From Verif.Model Require Import Base SMap Object Equality Token Parser Containers Xref Header FileWrite Chain Merge Unreferenced Duplicates Update PageTree Save NewDoc.
From Verif.Spec Require Import Grammar Xref FileWrite Chain Merge Unreferenced Equality Duplicates PageTree Save NewDoc.
From Verif.Proof Require Import Tac SMap FileWrite Unreferenced Save SaveOk PageTree Orderly.
From Verif.Proof Require Append.
Import ListNotations.
Local Open Scope N_scope.

(** ** flat page trees *)
Lemma count_flat : forall f h ks total, Forall (is_page h) ks -> total + len ks < 9223372036854775808 ->
  count_loop (update_counts (S f)) h ks total = (h, Ok (total + len ks)).
Proof.
  intros f h. induction ks as [|k ks IH]; intros total H Hl; cbn [count_loop].
  - unfold len. cbn [List.length N.of_nat]. rewrite N.add_0_r. reflexivity.
  - apply Forall_cons_iff in H. destruct H as ((par & E) & H). cbn [update_counts]. rewrite E. unfold len in *. cbn [List.length] in *.
    rewrite wadd_small by lia. rewrite IH by (assumption || lia). f_equal. f_equal. lia.
Qed.
Lemma update_flat : forall f h root c ks par, h root = Some (Tree (Some c) (Some ks) par) -> Forall (is_page h) ks -> len ks < 9223372036854775808 ->
  update_counts (S (S f)) h root = (PageTree.put h root (Tree (Some (Z.of_N (len ks))) (Some ks) par), Ok (len ks)).
Proof.
  intros f h root c ks par E H Hl. pose proof (count_flat f h ks 0 H) as C. remember (S f) as g. cbn [update_counts]. rewrite E.
  rewrite C by lia. unfold set_count. rewrite E. reflexivity.
Qed.
Definition answer_of (l : list N) (o : page_op) : res unit :=
  match o with PInsert _ _ => if snd (edit l o) then Ok tt else Throw EGeneral | _ => Ok tt end.
Lemma flat_step : forall f h root c l o, h root = Some (Tree (Some c) (Some l) None) -> c = Z.of_nat (List.length l) -> Forall (is_page h) l -> len l + 1 < 9223372036854775808 ->
  match o with PInsert p i => is_page h p /\ i < 18446744073709551616 | PAppend p => is_page h p | PRemove i => i < 18446744073709551616 end ->
  exists h', page_step (S (S f)) root h o = (h', answer_of l o) /\
    h' root = Some (Tree (Some (Z.of_nat (List.length (fst (edit l o))))) (Some (fst (edit l o))) None) /\
    match page_of_call o with Some p => snd (edit l o) = true -> h' p = Some (Page (Some root)) | None => True end.
Proof.
  intros f h root c l o E Ec H Hl Hg.
  assert (Hins : forall p i, is_page h p -> 1 <= i <= len l + 1 -> exists h', insert_page (S (S f)) h root p i = (h', Ok tt) /\
    h' root = Some (Tree (Some (Z.of_nat (List.length (insert_at l (N.to_nat i) p)))) (Some (insert_at l (N.to_nat i) p)) None) /\ h' p = Some (Page (Some root))).
  { intros p i (par & Ep) Hi. unfold insert_page, kids_internal. rewrite E.
    assert (Ea : arr_insert l (wsub i 1) p = Ok (insert_at l (N.to_nat i) p)).
    { rewrite wsub_small by lia. unfold arr_insert, arr_size. fold (len l). rewrite (proj2 (N.ltb_ge _ _)) by lia. unfold insert_at. replace (N.to_nat (i - 1)) with (N.to_nat i - 1)%nat by lia. reflexivity. }
    rewrite Ea. assert (Hne : p <> root) by (intros ->; congruence).
    set (h2 := set_parent (set_kids h root (insert_at l (N.to_nat i) p)) p root).
    assert (E2 : h2 = PageTree.put (PageTree.put h root (Tree (Some c) (Some (insert_at l (N.to_nat i) p)) None)) p (Page (Some root))).
    { unfold h2. rewrite (set_kids_at _ _ _ _ _ _ E). unfold set_parent. rewrite put_other by assumption. rewrite Ep. reflexivity. }
    assert (Er : h2 root = Some (Tree (Some c) (Some (insert_at l (N.to_nat i) p)) None)) by (rewrite E2, put_other by congruence; apply put_same).
    assert (Hp : Forall (is_page h2) (insert_at l (N.to_nat i) p)).
    { assert (Hall : Forall (is_page h2) (p :: l)).
      { apply Forall_forall. intros m Hm. rewrite E2. destruct (N.eq_dec m p) as [->|Hmp]; [eexists; apply put_same|]. destruct Hm as [->|Hm]; [contradiction|].
        rewrite Forall_forall in H. destruct (H m Hm) as (pm & Em). assert (m <> root) by congruence. exists pm. rewrite put_other by assumption. rewrite put_other by assumption. exact Em. }
      rewrite Forall_forall in Hall |- *. intros m Hm. apply Hall. unfold insert_at in Hm. apply in_app_or in Hm. destruct Hm as [Hm|[->|Hm]]; [right|left; reflexivity|right].
      - rewrite <- (firstn_skipn (N.to_nat i - 1) l). apply in_or_app. left. exact Hm.
      - rewrite <- (firstn_skipn (N.to_nat i - 1) l). apply in_or_app. right. exact Hm. }
    assert (Hlen : len (insert_at l (N.to_nat i) p) = len l + 1).
    { unfold len, insert_at. rewrite app_length. cbn [List.length]. rewrite <- (firstn_skipn (N.to_nat i - 1) l) at 3. rewrite app_length. lia. }
    rewrite (update_flat f h2 root c _ None Er Hp) by lia. cbn [finish_update]. eexists. split; [reflexivity|]. split.
    - rewrite put_same. unfold len. rewrite nat_N_Z. reflexivity.
    - rewrite put_other by assumption. rewrite E2. apply put_same. }
  destruct o as [p i|p|i]; cbn [page_step page_of_call answer_of edit].
  - destruct Hg as (Hp & Hi). destruct ((1 <=? i) && (i <=? N.of_nat (List.length l) + 1))%bool eqn:Eb; cbn [fst snd].
    + apply andb_true_iff in Eb. destruct Eb as (B1 & B2). apply N.leb_le in B1, B2. destruct (Hins p i Hp) as (h' & A1 & A2 & A3); [unfold len; lia|]. exists h'. auto.
    + rewrite (insert_outside _ _ _ _ _ _ _ _ E); [|unfold len in *; lia|exact Hi|unfold len; lia]. exists h. split; [reflexivity|]. split; [rewrite E; subst c; reflexivity|discriminate].
  - cbn [fst snd]. rewrite (append_insert _ _ _ _ _ _ _ E) by lia. destruct (Hins p (len l + 1) Hg) as (h' & A1 & A2 & A3); [lia|]. exists h'. split; [exact A1|].
    assert (El : insert_at l (N.to_nat (len l + 1)) p = l ++ [p]).
    { unfold insert_at, len. replace (N.to_nat (N.of_nat (List.length l) + 1) - 1)%nat with (List.length l) by lia. rewrite firstn_all, skipn_all. reflexivity. }
    rewrite El in A2. auto.
  - unfold remove_page, kids_internal. rewrite E. destruct ((1 <=? i) && (i <=? N.of_nat (List.length l)))%bool eqn:Eb; cbn [fst snd].
    + apply andb_true_iff in Eb. destruct Eb as (B1 & B2). apply N.leb_le in B1, B2. rewrite arr_remove_in by (unfold len in *; lia).
      rewrite (set_kids_at _ _ _ _ _ _ E). set (h2 := PageTree.put h root _). assert (Er : h2 root = Some (Tree (Some c) (Some (remove_at l (N.to_nat i))) None)) by apply put_same.
      assert (Hsub : incl (remove_at l (N.to_nat i)) l).
      { intros m Hm. unfold remove_at in Hm. apply in_app_or in Hm. destruct Hm as [Hm|Hm].
        - rewrite <- (firstn_skipn (N.to_nat i - 1) l). apply in_or_app. left. exact Hm.
        - rewrite <- (firstn_skipn (N.to_nat i) l). apply in_or_app. right. exact Hm. }
      assert (Hlen : len (remove_at l (N.to_nat i)) <= len l).
      { unfold len, remove_at. rewrite app_length, firstn_length, skipn_length. lia. }
      rewrite (update_flat f h2 root c _ None Er); [cbn [finish_update]; eexists; split; [reflexivity|split; [rewrite put_same; unfold len; rewrite nat_N_Z; reflexivity|exact I]]| |lia].
      apply Forall_forall. intros m Hm. rewrite Forall_forall in H. destruct (H m (Hsub m Hm)) as (pm & Em). assert (m <> root) by congruence. exists pm. unfold h2. rewrite put_other by assumption. exact Em.
    + rewrite arr_remove_out by (unfold len in *; lia). rewrite (set_kids_at _ _ _ _ _ _ E). set (h2 := PageTree.put h root _).
      assert (Er : h2 root = Some (Tree (Some c) (Some l) None)) by apply put_same.
      rewrite (update_flat f h2 root c _ None Er); [cbn [finish_update]; eexists; split; [reflexivity|split; [rewrite put_same; unfold len; rewrite nat_N_Z; reflexivity|exact I]]| |lia].
      apply Forall_forall. intros m Hm. rewrite Forall_forall in H. destruct (H m Hm) as (pm & Em). assert (m <> root) by congruence. exists pm. unfold h2. rewrite put_other by assumption. exact Em.
Qed.

(** ** dictionaries *)
Lemma set_entry_in : forall (k : bytes) v (m : list (bytes * obj)) k' o, In (k', o) (set_entry k v m) -> (k', o) = (k, v) \/ In (k', o) m.
Proof.
  intros k v m k' o H. assert (Hf : Forall (fun e => e = (k, v) \/ In e m) (set_entry k v m)).
  { unfold set_entry. apply sm_insert_forall; [left; reflexivity|]. apply sm_remove_forall. apply Forall_forall. auto. }
  rewrite Forall_forall in Hf. exact (Hf _ H).
Qed.
Lemma plain_refs_map : forall l, plain_refs (map (fun k => ORef k 0) l) = Some l.
Proof. induction l as [|k l IH]; [reflexivity|]. cbn [map plain_refs plain_ref]. rewrite IH. reflexivity. Qed.
Definition tree_object (l : list N) : obj :=
  ODict [(str "Count", OInt (Z.of_nat (List.length l))); (str "Kids", OArr (map (fun k => ORef k 0) l)); (str "Type", OName (str "Pages"))].
Lemma tree_node : forall l, page_node (tree_object l) = Some (Tree (Some (Z.of_nat (List.length l))) (Some l) None).
Proof. intros l. transitivity (Some (Tree (Some (Z.of_nat (List.length l))) (plain_refs (map (fun k => ORef k 0) l)) None)); [reflexivity|]. rewrite plain_refs_map. reflexivity. Qed.
Lemma tree_written : forall l l', match tree_object l with ODict m => ODict (write_node (Some (Tree (Some (Z.of_nat (List.length l'))) (Some l') None)) m) | o => o end = tree_object l'.
Proof. intros l l'. reflexivity. Qed.
Lemma page_object_node : forall m, sm_find (str "Type") m = Some (OName (str "Page")) -> exists par, page_node (ODict m) = Some (Page par).
Proof. intros m H. unfold page_node. rewrite H. change (bytes_eqb (str "Page") (str "Page")) with true. cbv iota beta. eexists. reflexivity. Qed.

(** ** the invariant *)
Definition free_head : xentry := {| xnum := 0; xgen := 65535; xdata := KFree 0 |}.
Fixpoint upto (k : nat) : list N := match k with O => [] | S k' => upto k' ++ [N.of_nat k] end.
Definition numbers (made : N) : list N := upto (N.to_nat made).
Lemma upto_in : forall k n, In n (upto k) <-> 1 <= n <= N.of_nat k.
Proof.
  induction k as [|k IH]; intros n; cbn [upto]; [split; [intros []|lia]|]. rewrite in_app_iff, IH. cbn [In]. lia.
Qed.
Lemma numbers_in : forall made n, In n (numbers made) <-> 1 <= n <= made.
Proof. intros made n. unfold numbers. rewrite upto_in. lia. Qed.
Lemma numbers_next : forall made, numbers (made + 1) = numbers made ++ [made + 1].
Proof. intros made. unfold numbers. replace (N.to_nat (made + 1)) with (S (N.to_nat made)) by lia. cbn [upto]. f_equal. f_equal. lia. Qed.
Lemma numbers_length : forall made, List.length (numbers made) = N.to_nat made.
Proof. intros made. unfold numbers. generalize (N.to_nat made). induction n as [|n IH]; [reflexivity|]. cbn [upto]. rewrite app_length, IH. cbn [List.length]. lia. Qed.
Lemma upto_nodup : forall k, NoDup (upto k).
Proof.
  induction k as [|k IH]; [constructor|]. cbn [upto]. rewrite <- (rev_involutive (upto k ++ _)). apply NoDup_rev. rewrite rev_app_distr. cbn [rev app].
  constructor; [rewrite <- in_rev, upto_in; lia|apply NoDup_rev; exact IH].
Qed.
Definition the_section (id : bytes) (made : N) : section :=
  {| s_kind := STable; s_entries := free_head :: map new_entry (numbers made); s_hybrid := None;
     s_trailer := [(str "ID", id_array id); (str "Info", ORef 4 0); (str "Root", ORef 1 0)] |}.
Definition catalog_object : obj := ODict [(str "Pages", ORef 2 0); (str "Type", OName (str "Catalog"))].
Definition info_object (producer date : bytes) : obj := ODict [(str "CreationDate", OLit date); (str "Producer", OLit producer)].

Section New.
Variable real : bool -> N -> N -> dbl.
Variables id producer date : bytes.
Hypothesis id_bytes : all_bytes id.
Hypothesis producer_bytes : all_bytes producer.
Hypothesis date_bytes : all_bytes date.
Notation fits := (Verif.Spec.NewDoc.fit real).

Record inv (k : nat) (d : newdoc) (s : sheet) : Prop := {
  i_chain : n_chain d = [the_section id (s_made s)];
  i_next : n_next d = s_made s + 1;
  i_made : 4 <= s_made s;
  i_size : s_made s <= 4 + N.of_nat k;
  i_none : forall n, n = 0 \/ s_made s < n -> n_objects d n = ONull;
  i_catalog : n_objects d 1 = catalog_object;
  i_tree : n_objects d 2 = tree_object (s_order s);
  i_info : n_objects d 4 = info_object producer date;
  i_fit : forall n, 1 <= n <= s_made s -> fits (s_made s) (n_objects d n);
  i_pages : forall p, In p (s_pages s) -> 3 <= p <= s_made s /\ p <> 4 /\ s_other s p = None /\
    exists m, n_objects d p = ODict m /\ writable (ODict m) /\ (forall key, all_bytes key -> sm_find key m = s_value s p key) /\
      s_value s p (str "Type") = Some (OName (str "Page"));
  i_other : forall n o, s_other s n = Some o -> 4 < n <= s_made s /\ n_objects d n = o;
  i_unused : forall n key, s_made s < n -> s_value s n key = None;
  i_order : incl (s_order s) (s_pages s);
  i_length : (List.length (s_order s) <= S k)%nat
}.

Lemma fit_more : forall made made' o, made <= made' -> fits made o -> fits made' o.
Proof.
  intros made made' o H (A1 & A2 & A3 & A4 & A5 & A6). split; [exact A1|]. split; [exact A2|]. split; [exact A3|]. split; [|split; [exact A5|exact A6]].
  intros n g M. destruct (A4 n g M) as (B & C). split; [lia|exact C].
Qed.
Lemma allocated : forall d s o, n_chain d = [the_section id (s_made s)] -> n_next d = s_made s + 1 -> s_made s + 2 < 18446744073709551616 ->
  new_object o d = Ok (s_made s + 1, with_object (s_made s + 1) o {| n_chain := [the_section id (s_made s + 1)]; n_next := s_made s + 1 + 1; n_objects := n_objects d |}).
Proof.
  intros d s o Ec En Hs. unfold new_object. rewrite Ec, En. cbn [allocate_from]. replace (max_u64 <=? s_made s + 1) with false by (unfold max_u64; lia).
  assert (Ef : xfind (s_made s + 1) (free_head :: map new_entry (numbers (s_made s))) = None).
  { destruct (xfind _ _) as [e|] eqn:E; [|reflexivity]. apply find_some in E. destruct E as (Hi & E). apply N.eqb_eq in E. destruct Hi as [<-|Hi]; [cbn [free_head xnum] in E; lia|].
    apply in_map_iff in Hi. destruct Hi as (n & <- & Hn). apply numbers_in in Hn. cbn [xnum new_entry] in E. lia. }
  assert (Ex : existsb (sec_contains (s_made s + 1)) [the_section id (s_made s)] = false).
  { cbn [existsb]. unfold sec_contains, sec_find. cbn [the_section s_entries s_kind s_hybrid]. rewrite Ef. reflexivity. }
  rewrite Ex. cbn [rbind]. unfold with_entries. cbn [the_section s_entries s_kind s_hybrid s_trailer]. do 3 f_equal. f_equal. unfold the_section. f_equal.
  rewrite numbers_next, map_app. cbn [xadd free_head xnum new_entry]. replace (s_made s + 1 <? 0) with false by lia. replace (s_made s + 1 =? 0) with false by lia. cbn [map]. f_equal. apply (f_equal (cons free_head)).
  assert (Hall : forall n, In n (numbers (s_made s)) -> n < s_made s + 1) by (intros n Hn; apply numbers_in in Hn; lia). revert Hall.
  generalize (numbers (s_made s)). clear. intros l H. induction l as [|n l IH]; [reflexivity|]. cbn [map app xadd new_entry xnum].
  assert (n < s_made s + 1) by (apply H; left; reflexivity). replace (s_made s + 1 <? n) with false by lia. replace (s_made s + 1 =? n) with false by lia. apply (f_equal (cons (new_entry n))). apply IH. intros m Hm. apply H. right. exact Hm.
Qed.

Lemma put_value_same : forall n k v f, put_value n k v f n k = Some v.
Proof. intros n k v f. unfold put_value. rewrite N.eqb_refl. destruct (list_eq_dec N.eq_dec k k); [reflexivity|congruence]. Qed.
Lemma put_value_other : forall n k v f n' k', n' <> n -> put_value n k v f n' k' = f n' k'.
Proof. intros n k v f n' k' H. unfold put_value. replace (n' =? n) with false by lia. reflexivity. Qed.

Lemma object_added : forall k d s o, inv k d s -> N.of_nat k + 10 < 9223372036854775808 -> fits (s_made s + 1) o ->
  let i := s_made s + 1 in let d' := with_object i o {| n_chain := [the_section id i]; n_next := i + 1; n_objects := n_objects d |} in
  new_object o d = Ok (i, d') /\ n_objects d' i = o /\ (forall n, n <> i -> n_objects d' n = n_objects d n) /\ (forall n, 1 <= n <= i -> fits i (n_objects d' n)) /\
  (forall n, n = 0 \/ i < n -> n_objects d' n = ONull).
Proof.
  intros k d s o I Hk Hf i d'. pose proof (i_made _ _ _ I). pose proof (i_size _ _ _ I). split.
  - apply allocated; [exact (i_chain _ _ _ I)|exact (i_next _ _ _ I)|lia].
  - assert (E1 : n_objects d' i = o) by (unfold d', with_object; cbn [n_objects]; rewrite N.eqb_refl; reflexivity).
    assert (E2 : forall n, n <> i -> n_objects d' n = n_objects d n) by (intros n Hn; unfold d', with_object; cbn [n_objects]; replace (n =? i) with false by lia; reflexivity).
    split; [exact E1|]. split; [exact E2|]. split.
    + intros n Hn. destruct (N.eq_dec n i) as [->|Hne]; [rewrite E1; exact Hf|]. rewrite E2 by exact Hne. apply (fit_more (s_made s)); [unfold i; lia|]. apply (i_fit _ _ _ I). unfold i in *. lia.
    + intros n Hn. rewrite E2 by (unfold i in *; lia). apply (i_none _ _ _ I). unfold i in *. lia.
Qed.
Lemma blank_page : writable (ODict [(str "Type", OName (str "Page"))]).
Proof. apply w_dict; repeat constructor; cbn; try discriminate; unfold is_byte; try lia. Qed.
Lemma blank_fit : forall made, fits made (ODict [(str "Type", OName (str "Page"))]).
Proof.
  intros made. split; [apply st_direct, blank_page|]. split; [discriminate|]. split; [discriminate|]. split; [|split; [|exact I]].
  - intros n g H. apply refs_mentions in H. destruct H.
  - intros neg m p H. inversion H as [|? ? Hin _|? ? ? Hin Hr|]; subst. destruct Hin as [E|[]]. injection E as _ <-. inversion Hr.
Qed.

Lemma new_page_step : forall k d s, inv k d s -> N.of_nat k + 10 < 9223372036854775808 ->
  exists d', step d NewPage = (d', right_answer s NewPage) /\ inv (S k) d' (next_sheet s NewPage).
Proof.
  intros k d s I Hk. destruct (object_added k d s _ I Hk (blank_fit _)) as (E1 & E2 & E3 & E4 & E5). cbn [step]. rewrite E1. cbn [created]. eexists. split; [reflexivity|].
  pose proof (i_made _ _ _ I) as Hm. pose proof (i_size _ _ _ I) as Hz.
  set (d' := with_object _ _ _) in *. split; cbn [next_sheet s_made s_pages s_value s_other s_order].
  - reflexivity.
  - reflexivity.
  - lia.
  - lia.
  - exact E5.
  - rewrite E3 by lia. exact (i_catalog _ _ _ I).
  - rewrite E3 by lia. exact (i_tree _ _ _ I).
  - rewrite E3 by lia. exact (i_info _ _ _ I).
  - exact E4.
  - intros p [<-|Hp].
    + split; [lia|]. split; [lia|]. split; [destruct (s_other s (s_made s + 1)) as [o|] eqn:Eo; [apply (i_other _ _ _ I) in Eo; lia|reflexivity]|].
      eexists. split; [exact E2|]. split; [exact blank_page|]. split; [|apply put_value_same].
      intros key Hb. unfold put_value. rewrite N.eqb_refl. destruct (list_eq_dec N.eq_dec key (str "Type")) as [->|Hne]; [reflexivity|].
      rewrite (i_unused _ _ _ I) by lia. destruct (sm_find key [(str "Type", OName (str "Page"))]) as [v|] eqn:Ef; [|reflexivity].
      exfalso. apply (sm_find_in _ key v) in Ef; [destruct Ef as [E|[]]; congruence| | |exact Hb].
      * repeat constructor.
      * repeat constructor; cbn; unfold is_byte; lia.
    + destruct (i_pages _ _ _ I p Hp) as (A1 & A2 & A3 & m & A4 & A5 & A6 & A7). split; [lia|]. split; [exact A2|]. split; [exact A3|]. exists m.
      rewrite E3 by lia. split; [exact A4|]. split; [exact A5|]. split; [intros key Hb; rewrite put_value_other by lia; auto|rewrite put_value_other by lia; exact A7].
  - intros n o Ho. destruct (i_other _ _ _ I n o Ho) as (A & B). split; [lia|]. rewrite E3 by lia. exact B.
  - intros n key Hn. rewrite put_value_other by lia. apply (i_unused _ _ _ I). lia.
  - intros p Hp. right. apply (i_order _ _ _ I). exact Hp.
  - pose proof (i_length _ _ _ I). lia.
Qed.
Lemma new_object_step : forall k d s o, inv k d s -> N.of_nat k + 10 < 9223372036854775808 -> fits (s_made s) o ->
  exists d', step d (NewObject o) = (d', right_answer s (NewObject o)) /\ inv (S k) d' (next_sheet s (NewObject o)).
Proof.
  intros k d s o I Hk Hf. assert (Hf' : fits (s_made s + 1) o) by (apply (fit_more (s_made s)); [lia|exact Hf]).
  destruct (object_added k d s o I Hk Hf') as (E1 & E2 & E3 & E4 & E5). cbn [step]. rewrite E1. cbn [created]. eexists. split; [reflexivity|].
  pose proof (i_made _ _ _ I) as Hm. pose proof (i_size _ _ _ I) as Hz.
  set (d' := with_object _ _ _) in *. split; cbn [next_sheet s_made s_pages s_value s_other s_order].
  - reflexivity.
  - reflexivity.
  - lia.
  - lia.
  - exact E5.
  - rewrite E3 by lia. exact (i_catalog _ _ _ I).
  - rewrite E3 by lia. exact (i_tree _ _ _ I).
  - rewrite E3 by lia. exact (i_info _ _ _ I).
  - exact E4.
  - intros p Hp. destruct (i_pages _ _ _ I p Hp) as (A1 & A2 & A3 & m & A4 & A5 & A6 & A7). split; [lia|]. split; [exact A2|].
    split; [replace (p =? s_made s + 1) with false by lia; exact A3|]. exists m. rewrite E3 by lia. auto.
  - intros n o' Ho. destruct (n =? s_made s + 1) eqn:En.
    + injection Ho as <-. apply N.eqb_eq in En. subst n. split; [lia|exact E2].
    + destruct (i_other _ _ _ I n o' Ho) as (A & B). split; [lia|]. rewrite E3 by lia. exact B.
  - intros n key Hn. apply (i_unused _ _ _ I). lia.
  - exact (i_order _ _ _ I).
  - pose proof (i_length _ _ _ I). lia.
Qed.

(** an entry of a page is replaced *)
Lemma fit_dict : forall made m, fits made (ODict m) <-> (writable (ODict m) /\ (forall key v, In (key, v) m -> (forall n g, mentions n g v -> 1 <= n <= made /\ g = 0) /\ (forall neg a b, real_inside neg a b v -> within_range (real neg a b)))).
Proof.
  intros made m. split.
  - intros (A1 & _ & _ & A4 & A5 & _). split; [inversion A1; assumption|]. intros key v Hin. split.
    + intros n g M. apply A4. apply (m_dict _ _ _ key v); assumption.
    + intros neg a b R. apply A5. apply (ri_dict _ _ _ _ key v); assumption.
  - intros (A1 & A2). split; [apply st_direct; exact A1|]. split; [discriminate|]. split; [discriminate|]. split; [|split; [|exact I]].
    + intros n g M. inversion M as [|? ? Hin M'|? key v Hin M'|]; subst. apply (A2 key v Hin). exact M'.
    + intros neg a b R. inversion R as [|? ? Hin R'|? key v Hin R'|]; subst. apply (A2 key v Hin). exact R'.
Qed.
Lemma fit_set : forall made m key v, fits made (ODict m) -> all_bytes key -> writable v -> v <> ONull ->
  (forall n g, mentions n g v -> 1 <= n <= made /\ g = 0) -> (forall neg a b, real_inside neg a b v -> within_range (real neg a b)) -> fits made (ODict (set_entry key v m)).
Proof.
  intros made m key v F Hb Hw Hn Hm Hr. apply fit_dict in F. destruct F as (F1 & F2). apply fit_dict. split; [apply writable_set; assumption|].
  intros key' v' Hin. apply set_entry_in in Hin. destruct Hin as [E|Hin]; [injection E as -> ->; auto|exact (F2 key' v' Hin)].
Qed.
Lemma page_edited : forall k d s p key v, inv k d s -> In p (s_pages s) -> all_bytes key -> key <> str "Type" -> writable v -> v <> ONull ->
  (forall n g, mentions n g v -> 1 <= n <= s_made s /\ g = 0) -> (forall neg a b, real_inside neg a b v -> within_range (real neg a b)) ->
  inv k (edit_object p (set_entry key v) d) (next_sheet s (SetEntry p key v)).
Proof.
  intros k d s p key v I Hp Hb Ht Hw Hn Hm Hr. destruct (i_pages _ _ _ I p Hp) as (A1 & A2 & A3 & m & A4 & A5 & A6 & A7).
  unfold edit_object. rewrite A4. set (d' := with_object _ _ _).
  assert (E1 : n_objects d' p = ODict (set_entry key v m)) by (unfold d', with_object; cbn [n_objects]; rewrite N.eqb_refl; reflexivity).
  assert (E2 : forall n, n <> p -> n_objects d' n = n_objects d n) by (intros n Hne; unfold d', with_object; cbn [n_objects]; replace (n =? p) with false by lia; reflexivity).
  split; cbn [next_sheet s_made s_pages s_value s_other s_order].
  - exact (i_chain _ _ _ I).
  - exact (i_next _ _ _ I).
  - exact (i_made _ _ _ I).
  - exact (i_size _ _ _ I).
  - intros n H. rewrite E2 by lia. apply (i_none _ _ _ I). exact H.
  - rewrite E2 by lia. exact (i_catalog _ _ _ I).
  - rewrite E2 by lia. exact (i_tree _ _ _ I).
  - rewrite E2 by lia. exact (i_info _ _ _ I).
  - intros n H. destruct (N.eq_dec n p) as [->|Hne]; [rewrite E1|rewrite E2 by exact Hne; apply (i_fit _ _ _ I); exact H].
    apply fit_set; try assumption. rewrite <- A4. apply (i_fit _ _ _ I). exact H.
  - intros q Hq. destruct (N.eq_dec q p) as [->|Hne].
    + split; [exact A1|]. split; [exact A2|]. split; [exact A3|]. exists (set_entry key v m). split; [exact E1|]. split; [apply writable_set; assumption|]. split.
      * intros key' Hb'. unfold set_entry. rewrite (find_set m key v key' A5 Hb Hb'). unfold put_value. rewrite N.eqb_refl. rewrite A6 by exact Hb'. reflexivity.
      * unfold put_value. rewrite N.eqb_refl. destruct (list_eq_dec N.eq_dec (str "Type") key) as [E|_]; [congruence|exact A7].
    + destruct (i_pages _ _ _ I q Hq) as (B1 & B2 & B3 & m' & B4 & B5 & B6 & B7). split; [exact B1|]. split; [exact B2|]. split; [exact B3|]. exists m'.
      rewrite E2 by exact Hne. split; [exact B4|]. split; [exact B5|]. split; [intros key' Hb'; rewrite put_value_other by exact Hne; auto|rewrite put_value_other by exact Hne; exact B7].
  - intros n o Ho. destruct (i_other _ _ _ I n o Ho) as (B1 & B2). split; [exact B1|]. rewrite E2; [exact B2|]. intros ->. congruence.
  - intros n key' H. rewrite put_value_other by lia. apply (i_unused _ _ _ I). exact H.
  - exact (i_order _ _ _ I).
  - exact (i_length _ _ _ I).
Qed.

(** a call on the page tree *)
Definition with_order (l : list N) (s : sheet) : sheet :=
  {| s_made := s_made s; s_pages := s_pages s; s_value := s_value s; s_other := s_other s; s_order := l |}.
Lemma tree_fit : forall made l, 4 <= made -> made < 9223372036854775808 -> (forall p, In p l -> 1 <= p <= made) -> N.of_nat (List.length l) < 9223372036854775808 -> fits made (tree_object l).
Proof.
  intros made l Hm Hb Hl Hn. apply fit_dict. split.
  - apply w_dict; [| |].
    + repeat constructor; cbn; try (apply kl_less; cbn; lia).
    + repeat constructor; cbn; unfold is_byte; try lia; discriminate.
    + cbn [map snd]. constructor; [apply w_int; change (2 ^ 63)%Z with 9223372036854775808%Z; lia|]. constructor; [|constructor; [apply w_name; repeat constructor; unfold is_byte; lia|constructor]].
      apply w_arr. apply Forall_forall. intros x Hx. apply in_map_iff in Hx. destruct Hx as (p & <- & Hp). apply Hl in Hp. apply w_ref; change (2 ^ 63) with 9223372036854775808; lia.
  - intros key v Hin. destruct Hin as [E|[E|[E|[]]]]; apply pair_equal_spec in E; destruct E as (_ & <-); (split; [|intros neg a b R; inversion R as [|? o Hin R'|? ? ? Hin R'|]; subst]).
    + intros n g M. inversion M.
    + intros n g M. inversion M as [|? o Hin M'| |]; subst. apply in_map_iff in Hin. destruct Hin as (p & <- & Hp). inversion M'; subst. split; [apply Hl; exact Hp|reflexivity].
    + apply in_map_iff in Hin. destruct Hin as (p & <- & Hp). inversion R'.
    + intros n g M. inversion M.
Qed.
Lemma tree_edited : forall k k' d s l, inv k d s -> (k <= k')%nat -> N.of_nat k' + 10 < 9223372036854775808 -> incl l (s_pages s) -> (List.length l <= S k')%nat ->
  inv k' (with_object 2 (tree_object l) d) (with_order l s).
Proof.
  intros k k' d s l I Hk Hb Hi Hl. pose proof (i_made _ _ _ I) as Hm. pose proof (i_size _ _ _ I) as Hz. set (d' := with_object _ _ _).
  assert (E1 : n_objects d' 2 = tree_object l) by reflexivity.
  assert (E2 : forall n, n <> 2 -> n_objects d' n = n_objects d n) by (intros n Hne; unfold d', with_object; cbn [n_objects]; replace (n =? 2) with false by lia; reflexivity).
  split; cbn [with_order s_made s_pages s_value s_other s_order].
  - exact (i_chain _ _ _ I).
  - exact (i_next _ _ _ I).
  - exact Hm.
  - lia.
  - intros n H. rewrite E2 by lia. apply (i_none _ _ _ I). exact H.
  - rewrite E2 by lia. exact (i_catalog _ _ _ I).
  - exact E1.
  - rewrite E2 by lia. exact (i_info _ _ _ I).
  - intros n H. destruct (N.eq_dec n 2) as [->|Hne]; [rewrite E1|rewrite E2 by exact Hne; apply (i_fit _ _ _ I); exact H].
    apply tree_fit; [exact Hm|lia| |lia]. intros p Hp. apply Hi in Hp. apply (i_pages _ _ _ I) in Hp. lia.
  - intros p Hp. destruct (i_pages _ _ _ I p Hp) as (B1 & B). split; [exact B1|]. rewrite E2 by lia. exact B.
  - intros n o Ho. destruct (i_other _ _ _ I n o Ho) as (B1 & B2). split; [exact B1|]. rewrite E2 by lia. exact B2.
  - exact (i_unused _ _ _ I).
  - exact Hi.
  - exact Hl.
Qed.
Lemma edit_incl : forall l o (P : N -> Prop), (forall p, In p l -> P p) -> (match page_of_call o with Some p => P p | None => True end) -> forall p, In p (fst (edit l o)) -> P p.
Proof.
  intros l o P Hl Ho p Hp. destruct o as [q i|q|i]; cbn [edit page_of_call] in *.
  - destruct ((1 <=? i) && (i <=? N.of_nat (List.length l) + 1))%bool; cbn [fst] in Hp; [|auto]. unfold insert_at in Hp. apply in_app_or in Hp. destruct Hp as [Hp|[<-|Hp]]; [|exact Ho|]; apply Hl.
    + rewrite <- (firstn_skipn (N.to_nat i - 1) l). apply in_or_app. left. exact Hp.
    + rewrite <- (firstn_skipn (N.to_nat i - 1) l). apply in_or_app. right. exact Hp.
  - cbn [fst] in Hp. apply in_app_or in Hp. destruct Hp as [Hp|[<-|[]]]; auto.
  - destruct ((1 <=? i) && (i <=? N.of_nat (List.length l)))%bool; cbn [fst] in Hp; [|auto]. unfold remove_at in Hp. apply in_app_or in Hp. destruct Hp as [Hp|Hp]; apply Hl.
    + rewrite <- (firstn_skipn (N.to_nat i - 1) l). apply in_or_app. left. exact Hp.
    + rewrite <- (firstn_skipn (N.to_nat i) l). apply in_or_app. right. exact Hp.
Qed.
Lemma edit_length : forall l o, (List.length (fst (edit l o)) <= S (List.length l))%nat.
Proof.
  intros l [q i|q|i]; cbn [edit].
  - destruct ((1 <=? i) && (i <=? N.of_nat (List.length l) + 1))%bool; cbn [fst]; [|lia]. unfold insert_at. rewrite app_length. cbn [List.length]. rewrite firstn_length, skipn_length. lia.
  - cbn [fst]. rewrite app_length. cbn [List.length]. lia.
  - destruct ((1 <=? i) && (i <=? N.of_nat (List.length l)))%bool; cbn [fst]; [|lia]. unfold remove_at. rewrite app_length, firstn_length, skipn_length. lia.
Qed.
Lemma parent_fits : forall k d s, inv k d s -> writable the_tree /\ the_tree <> ONull /\ (forall n g, mentions n g the_tree -> 1 <= n <= s_made s /\ g = 0) /\
  (forall neg a b, real_inside neg a b the_tree -> within_range (real neg a b)).
Proof.
  intros k d s I. pose proof (i_made _ _ _ I). split; [apply w_ref; [reflexivity|lia]|]. split; [discriminate|]. split; [|intros neg a b R; inversion R].
  intros n g M. inversion M; subst. split; [lia|reflexivity].
Qed.
Lemma pages_step : forall k d s o, inv k d s -> N.of_nat (S k) + 10 < 9223372036854775808 -> good_action real s (Pages o) ->
  exists d', step d (Pages o) = (d', right_answer s (Pages o)) /\ inv (S k) d' (next_sheet s (Pages o)).
Proof.
  intros k d s o I Hk Hg. pose proof (i_made _ _ _ I) as Hm. pose proof (i_size _ _ _ I) as Hz. pose proof (i_length _ _ _ I) as Hln.
  assert (Hpv : forall p, In p (s_pages s) -> is_page (page_view d) p).
  { intros p Hp. destruct (i_pages _ _ _ I p Hp) as (_ & _ & _ & m & A4 & _ & A6 & A7). unfold page_view, is_page. rewrite A4. apply page_object_node.
    rewrite A6; [exact A7|repeat constructor; unfold is_byte; lia]. }
  assert (Ev : page_view d 2 = Some (Tree (Some (Z.of_nat (List.length (s_order s)))) (Some (s_order s)) None)) by (unfold page_view; rewrite (i_tree _ _ _ I); apply tree_node).
  destruct (flat_step (chain_size (n_chain d)) (page_view d) 2 _ (s_order s) o Ev eq_refl) as (h' & E1 & E2 & E3).
  { apply Forall_forall. intros p Hp. apply Hpv. apply (i_order _ _ _ I). exact Hp. }
  { unfold len. lia. }
  { destruct o as [p i|p|i]; cbn [good_action] in Hg; [split; [apply Hpv; apply Hg|apply Hg]|apply Hpv; exact Hg|exact Hg]. }
  assert (Hpc : match page_of_call o with Some p => In p (s_pages s) | None => True end) by (destruct o as [p i|p|i]; cbn [good_action page_of_call] in *; tauto).
  set (l' := fst (edit (s_order s) o)) in *.
  assert (Hi : incl l' (s_pages s)) by (intros p Hp; refine (edit_incl (s_order s) o (fun p => In p (s_pages s)) _ Hpc p Hp); exact (i_order _ _ _ I)).
  assert (Hl' : (List.length l' <= S (S k))%nat) by (pose proof (edit_length (s_order s) o) as L; fold l' in L; lia).
  assert (I1 := tree_edited k (S k) d s l' I (Nat.le_succ_diag_r k) Hk Hi Hl').
  cbn [step]. unfold page_call. change tree_number with 2. rewrite E1. rewrite E2.
  assert (Ed : edit_object 2 (write_node (Some (Tree (Some (Z.of_nat (List.length l'))) (Some l') None))) d = with_object 2 (tree_object l') d).
  { unfold edit_object. rewrite (i_tree _ _ _ I). unfold tree_object at 1. f_equal. }
  rewrite Ed.
  assert (Hset : forall p, In p (s_pages s) -> snd (edit (s_order s) o) = true -> page_of_call o = Some p ->
    inv (S k) (edit_object p (write_node (h' p)) (with_object 2 (tree_object l') d)) (next_sheet (with_order l' s) (SetEntry p (str "Parent") the_tree))).
  { intros p Hp Es Ep. rewrite Ep in E3. rewrite (E3 Es). destruct (parent_fits _ _ _ I1) as (P1 & P2 & P3 & P4).
    apply page_edited; [exact I1|exact Hp|repeat constructor; unfold is_byte; lia|discriminate|exact P1|exact P2|exact P3|exact P4]. }
  destruct o as [p i|p|i]; cbn [page_of_call answer_of right_answer] in *.
  - unfold l' in *. clear l'. destruct (snd (edit (s_order s) (PInsert p i))) eqn:Es.
    + eexists. split; [reflexivity|]. specialize (Hset p Hpc eq_refl eq_refl). cbn [next_sheet with_order s_made s_pages s_value s_other s_order] in *. rewrite Es. exact Hset.
    + eexists. split; [reflexivity|]. cbn [next_sheet]. rewrite Es. exact I1.
  - unfold l' in *. clear l'. eexists. split; [reflexivity|]. specialize (Hset p Hpc eq_refl eq_refl). exact Hset.
  - eexists. split; [reflexivity|]. exact I1.
Qed.

Lemma run_inv : forall l k d s, inv k d s -> N.of_nat (k + List.length l) + 12 < 9223372036854775808 -> good_actions real s l ->
  exists d', run d l = (d', right_answers s l) /\ inv (k + List.length l) d' (fold_left next_sheet l s).
Proof.
  induction l as [|a l IH]; intros k d s I Hk Hg; [exists d; split; [reflexivity|rewrite Nat.add_0_r; exact I]|]. cbn [good_actions] in Hg. destruct Hg as (Ha & Hg).
  assert (Hs : exists d1, step d a = (d1, right_answer s a) /\ inv (S k) d1 (next_sheet s a)).
  { cbn [List.length] in Hk. destruct a as [|o|p key v|o].
    - apply new_page_step; [exact I|lia].
    - apply new_object_step; [exact I|lia|exact Ha].
    - cbn [good_action] in Ha. destruct Ha as (A1 & A2 & A3 & A4 & A5 & A6 & A7 & A8). cbn [step]. eexists. split; [reflexivity|].
      assert (I1 := page_edited k d s p key v I A1 A2 A3 A5 A6 A7 A8). destruct I1. constructor; try assumption; lia.
    - apply pages_step; [exact I|lia|exact Ha]. }
  destruct Hs as (d1 & E1 & I1). cbn [run right_answers fold_left]. rewrite E1.
  destruct (IH (S k) d1 (next_sheet s a) I1) as (d2 & E2 & I2); [cbn [List.length] in Hk; lia|exact Hg|]. rewrite E2. exists d2. split; [reflexivity|].
  cbn [List.length]. replace (k + S (List.length l))%nat with (S k + List.length l)%nat by lia. exact I2.
Qed.

(** ** the beginning *)
Lemma create_inv : exists d, create_document id producer date = Ok d /\ inv 0 d new_sheet.
Proof.
  eexists. split; [reflexivity|].
  assert (Hfit : forall n o, In (n, o) [(1, catalog_object); (2, tree_object [3]); (3, ODict [(str "Parent", ORef 2 0); (str "Type", OName (str "Page"))]); (4, info_object producer date)] -> fits 4 o).
  { intros n o Hin. destruct Hin as [E|[E|[E|[E|[]]]]]; apply pair_equal_spec in E; destruct E as (_ & <-).
    - apply fit_dict. split.
      + apply w_dict; [repeat constructor; cbn; try (apply kl_less; cbn; lia)|repeat constructor; cbn; unfold is_byte; try lia; discriminate|]. cbn [map snd].
        constructor; [apply w_ref; [reflexivity|lia]|]. constructor; [apply w_name; repeat constructor; unfold is_byte; lia|constructor].
      + intros key v [E|[E|[]]]; apply pair_equal_spec in E; destruct E as (_ & <-); (split; [intros a b M; inversion M; subst; split; lia|intros neg a b R; inversion R]).
    - apply tree_fit; [lia|lia| |cbn; lia]. intros p [<-|[]]; lia.
    - apply fit_dict. split.
      + apply w_dict; [repeat constructor; cbn; try (apply kl_less; cbn; lia)|repeat constructor; cbn; unfold is_byte; try lia; discriminate|]. cbn [map snd].
        constructor; [apply w_ref; [reflexivity|lia]|]. constructor; [apply w_name; repeat constructor; unfold is_byte; lia|constructor].
      + intros key v [E|[E|[]]]; apply pair_equal_spec in E; destruct E as (_ & <-); (split; [intros a b M; inversion M; subst; split; lia|intros neg a b R; inversion R]).
    - apply fit_dict. split.
      + apply w_dict; [repeat constructor; cbn; try (apply kl_less; cbn; lia)|repeat constructor; cbn; unfold is_byte; try lia; discriminate|]. cbn [map snd].
        constructor; [apply w_lit; exact date_bytes|]. constructor; [apply w_lit; exact producer_bytes|constructor].
      + intros key v [E|[E|[]]]; apply pair_equal_spec in E; destruct E as (_ & <-); (split; [intros a b M; inversion M|intros neg a b R; inversion R]). }
  match goal with |- inv 0 ?x new_sheet => set (d := x) end.
  assert (O1 : n_objects d 1 = catalog_object) by reflexivity. assert (O2 : n_objects d 2 = tree_object [3]) by reflexivity.
  assert (O3 : n_objects d 3 = ODict [(str "Parent", ORef 2 0); (str "Type", OName (str "Page"))]) by reflexivity. assert (O4 : n_objects d 4 = info_object producer date) by reflexivity.
  assert (O0 : forall n, n = 0 \/ 4 < n -> n_objects d n = ONull).
  { intros n Hn. destruct n as [|n]; [reflexivity|]. destruct Hn as [Hn|Hn]; [discriminate|]. destruct n as [n|n|]; [destruct n as [n|n|]|destruct n as [n|n|]|]; try lia; try reflexivity.
    destruct n as [n|n|]; try lia; reflexivity. }
  assert (Ec : n_chain d = [the_section id 4]) by reflexivity. assert (En : n_next d = 5) by reflexivity. clearbody d.
  split; cbn [new_sheet s_made s_pages s_value s_other s_order].
  - exact Ec.
  - exact En.
  - lia.
  - lia.
  - exact O0.
  - exact O1.
  - exact O2.
  - exact O4.
  - intros n Hn. assert (Hc : n = 1 \/ n = 2 \/ n = 3 \/ n = 4) by lia. destruct Hc as [ -> | [ -> | [ -> | -> ]]]; [rewrite O1|rewrite O2|rewrite O3|rewrite O4]; eapply Hfit; cbn [In]; eauto 10.
  - intros p [<-|[]]. split; [lia|]. split; [lia|]. split; [reflexivity|]. eexists. split; [exact O3|]. split; [|split; [|reflexivity]].
    + assert (F : fits 4 (ODict [(str "Parent", ORef 2 0); (str "Type", OName (str "Page"))])) by (eapply Hfit; right; right; left; reflexivity). apply fit_dict in F. apply F.
    + intros key Hb. assert (F : fits 4 (ODict [(str "Parent", ORef 2 0); (str "Type", OName (str "Page"))])) by (eapply Hfit; right; right; left; reflexivity). apply fit_dict in F. destruct F as (F & _).
      apply writable_parts in F. destruct F as (F1 & F2 & _). unfold put_value. cbn [N.eqb Pos.eqb]. destruct (list_eq_dec N.eq_dec key (str "Type")) as [->|N1]; [reflexivity|].
      destruct (list_eq_dec N.eq_dec key (str "Parent")) as [->|N2]; [reflexivity|]. destruct (sm_find key _) as [v|] eqn:Ef; [|reflexivity].
      apply (sm_find_in _ _ _ F1 F2 Hb) in Ef. destruct Ef as [E|[E|[]]]; apply pair_equal_spec in E; destruct E as (E & _); congruence.
  - intros n o Ho. discriminate.
  - intros n key Hn. rewrite !put_value_other by lia. reflexivity.
  - intros p Hp. exact Hp.
  - cbn. lia.
Qed.

(** ** saving it *)
Lemma closed_of : forall o, (forall n g, ~ mentions n g o) -> closed (value_of real o).
Proof.
  induction o as [l IH|l IH|l x IH|o Ho] using obj_induction; intros H; cbn [value_of].
  - apply c_arr. apply Forall_map. rewrite Forall_forall in *. intros y Hy. apply IH; [exact Hy|]. intros n g M. apply (H n g). exact (m_arr n g l y Hy M).
  - apply c_dict. apply Forall_map. rewrite Forall_forall in *. intros [key y] Hy. apply (IH (key, y)); [exact Hy|]. intros n g M. apply (H n g). exact (m_dict n g l key y Hy M).
  - apply c_stream. apply Forall_map. rewrite Forall_forall in *. intros [key y] Hy. apply (IH (key, y)); [exact Hy|]. intros n g M. apply (H n g). exact (m_stream n g l x key y Hy M).
  - destruct o; try destruct Ho; cbn [value_of]; try constructor. exfalso. eapply H. constructor.
Qed.
Lemma found_entry : forall made n, xfind n (free_head :: map new_entry (numbers made)) = if n =? 0 then Some free_head else if n <=? made then Some (new_entry n) else None.
Proof.
  intros made n. unfold xfind. cbn [find free_head xnum]. replace (0 =? n) with (n =? 0) by lia. cif; [reflexivity|].
  destruct (n <=? made) eqn:E2.
  - destruct (find _ _) as [e|] eqn:Ef.
    + apply find_some in Ef. destruct Ef as (Hin & En). apply in_map_iff in Hin. destruct Hin as (m & <- & _). cbn [new_entry xnum] in En. f_equal. f_equal. lia.
    + exfalso. assert (Hin : In (new_entry n) (map new_entry (numbers made))) by (apply in_map, numbers_in; lia). apply (find_none _ _ Ef) in Hin. cbn [new_entry xnum] in Hin. lia.
  - destruct (find _ _) as [e|] eqn:Ef; [|reflexivity]. apply find_some in Ef. destruct Ef as (Hin & En). apply in_map_iff in Hin. destruct Hin as (m & <- & Hm). cbn [new_entry xnum] in En. apply numbers_in in Hm. lia.
Qed.
Lemma the_objects : forall k d s n g, inv k d s -> document_objects (contents d) (n_chain d) n g = if g =? 0 then n_objects d n else ONull.
Proof.
  intros k d s n g H. rewrite (i_chain _ _ _ H). unfold document_objects, resolve_entry. cbn [chain_entry]. unfold sec_find. cbn [the_section s_entries s_kind s_hybrid].
  rewrite found_entry. destruct (N.eqb_spec n 0) as [->|Hn0].
  - change (xgen free_head) with 65535. destruct (65535 =? g) eqn:E1; cbn [free_head xdata].
    + replace (g =? 0) with false by lia. reflexivity.
    + cif; [|reflexivity]. symmetry. apply (i_none _ _ _ H). left. reflexivity.
  - destruct (n <=? s_made s) eqn:E2.
    + change (xgen (new_entry n)) with 0. replace (0 =? g) with (g =? 0) by lia. destruct (g =? 0) eqn:Eg; [reflexivity|reflexivity].
    + cif; [|reflexivity]. symmetry. apply (i_none _ _ _ H). right. lia.
Qed.
Lemma saved : forall hash order arrange rl k d s,
  any_order order -> any_arrangement arrange -> (forall v, hash v <> 0) -> inv k d s -> N.of_nat k + 12 < 9223372036854775808 ->
  let f := document_objects (contents d) (n_chain d) in
  exists file, save real hash order arrange d = Ok file /\
    ((Z.of_nat (List.length file) < 2 ^ 63)%Z ->
     exists t trailer', open_file parser_dictionary rl file = Ok (PDF17, t, ODict trailer') /\ 
       forall key, In key [str "Root"; str "Info"; str "ID"] ->
         match sm_find key (s_trailer (the_section id (s_made s))), sm_find key trailer' with
         | Some a, Some b => same_document real f (file_store rl file t) a b
         | None, None => True
         | _, _ => False
         end).
Proof.
  intros hash order arrange rl k d s Ho Ha Hh H Hk f.
  assert (Hstore : forall n g, f n g = if g =? 0 then n_objects d n else ONull) by (intros n g; exact (the_objects k d s n g H)).
  assert (Hone : forall (P : obj -> Prop), P ONull -> (forall n, 1 <= n <= s_made s -> P (n_objects d n)) -> forall n g, P (f n g)).
  { intros P P0 P1 n g. rewrite Hstore. cif; [|exact P0]. destruct (N.eq_dec n 0) as [->|]; [rewrite (i_none _ _ _ H) by lia; exact P0|]. destruct (N.le_gt_cases n (s_made s)); [apply P1; lia|].
    rewrite (i_none _ _ _ H) by lia. exact P0. }
  assert (Ef : f = document_objects (contents d) (the_section id (s_made s) :: [])) by (unfold f; rewrite (i_chain _ _ _ H); reflexivity).
  assert (C1 : plain_tables [the_section id (s_made s)]).
  { split; [discriminate|]. intros x [<-|[]]. split; [reflexivity|]. split; [reflexivity|]. cbn [the_section s_entries map free_head xnum]. split.
    - rewrite map_map. rewrite (map_ext (fun x => xnum (new_entry x)) (fun x => x)) by reflexivity. rewrite map_id. constructor; [rewrite numbers_in; lia|apply upto_nodup].
    - intros e [<-|Hin]; [cbn [xgen xdata free_head]; split; [lia|exact I]|]. apply in_map_iff in Hin. destruct Hin as (m & <- & _). cbn [new_entry xgen xdata]. split; [lia|reflexivity]. }
  assert (C2 : nothing_deleted [the_section id (s_made s)]).
  { intros newer x older e s' e' E _ _ Hin. destruct newer as [|y newer]; [injection E as _ E; rewrite <- E in Hin; destruct Hin|]. injection E as _ E. destruct newer; discriminate. }
  assert (C3 : N.of_nat (S (List.length (flat_map s_entries [the_section id (s_made s)]))) < 2 ^ 63).
  { change (2 ^ 63) with 9223372036854775808. cbn [flat_map the_section s_entries]. rewrite app_nil_r. cbn [List.length]. rewrite map_length, numbers_length. pose proof (i_size _ _ _ H). lia. }
  assert (C4 : writable (ODict (s_trailer (the_section id (s_made s))))).
  { cbn [the_section s_trailer]. apply w_dict; [repeat (apply SSorted_cons || apply SSorted_nil || apply Forall_cons || apply Forall_nil); cbn; repeat (first [apply kl_less; cbn; lia|apply kl_eq])|repeat constructor; cbn; unfold is_byte; try lia; discriminate|]. cbn [map snd].
    constructor; [|constructor; [apply w_ref; [reflexivity|lia]|constructor; [apply w_ref; [reflexivity|lia]|constructor]]]. apply w_arr. constructor; [apply w_hex; exact id_bytes|]. constructor; [apply w_hex; exact id_bytes|constructor]. }
  assert (C5 : sm_find (str "XRefStm") (s_trailer (the_section id (s_made s))) = None) by reflexivity.
  assert (C6 : stores_objects f).
  { unfold stores_objects. apply (Hone (fun o => storable o /\ forall n' g', o <> ORef n' g')).
    - split; [apply st_direct; constructor|discriminate].
    - intros n Hn. destruct (i_fit _ _ _ H n Hn) as (A1 & _ & A3 & _). auto. }
  assert (C7 : no_loose_reference f (ODict (s_trailer (the_section id (s_made s))))).
  { assert (Hnot : forall n g, 1 <= n <= s_made s /\ g = 0 -> f n g <> ONull).
    { intros n g (Hn & ->). rewrite Hstore. cbn [N.eqb]. apply (i_fit _ _ _ H n Hn). }
    pose proof (i_made _ _ _ H). intros n g [M|(m & gm & M)]; apply Hnot.
    - inversion M as [| |? key v Hin M'|]; subst. cbn [the_section s_trailer] in Hin. destruct Hin as [E|[E|[E|[]]]]; apply pair_equal_spec in E; destruct E as (_ & <-).
      + inversion M' as [|? o Hin M2| |]; subst. destruct Hin as [<-|[<-|[]]]; inversion M2.
      + inversion M'; subst. split; lia.
      + inversion M'; subst. split; lia.
    - revert n g M. apply (Hone (fun o => forall n g, mentions n g o -> 1 <= n <= s_made s /\ g = 0)).
      + intros n g M. inversion M.
      + intros i Hi. apply (i_fit _ _ _ H i Hi). }
  assert (C8 : hashes_steady real hash f).
  { intros n g. left. unfold steady. cbn [d_value]. destruct (f n g) as [| | | | | | | | | |m x] eqn:E; cbn [value_of]; auto.
    1: right; unfold hash_item; cbn [d_value d_cache]; rewrite N.eqb_refl; apply Hh.
    1: right; unfold hash_item; cbn [d_value d_cache]; rewrite N.eqb_refl; apply Hh.
    left. change (closed (value_of real (OStream m x))). rewrite <- E. assert (Hc : match f n g with OStream _ _ => forall n' g', ~ mentions n' g' (f n g) | _ => True end).
    { apply (Hone (fun o => match o with OStream _ _ => forall n' g', ~ mentions n' g' o | _ => True end)); [exact I|]. intros i Hi. apply (i_fit _ _ _ H i Hi). }
    apply closed_of. rewrite E in *. exact Hc. }
  assert (C9 : reals_within_range real f).
  { unfold reals_within_range. apply (Hone (fun o => forall neg m p, real_inside neg m p o -> within_range (real neg m p))).
    - intros neg m p R. inversion R.
    - intros i Hi. apply (i_fit _ _ _ H i Hi). }
  rewrite Ef in C6, C7, C8, C9. unfold save. rewrite (i_chain _ _ _ H).
  destruct (undeleted_save_ok real hash (contents d) order arrange PDF17 (the_section id (s_made s)) [] Ho Ha C1 C2 C3 C4 C5 C6 C7 C8 C9) as (file & Efile).
  exists file. split; [exact Efile|]. intros Hlen. rewrite Ef.
  exact (undeleted_save real hash (contents d) order arrange rl PDF17 (the_section id (s_made s)) [] file Ho Ha C1 C2 C3 C4 C5 C6 C7 C8 Efile Hlen).
Qed.
Lemma inv_shows : forall k d s, inv k d s -> shows s (document_objects (contents d) (n_chain d)).
Proof.
  intros k d s H. split.
  - intros p Hp. destruct (i_pages _ _ _ H p Hp) as (_ & _ & _ & m & E & _ & Hv & _). exists m. rewrite (the_objects k d s p 0 H). cbn [N.eqb]. split; [exact E|exact Hv].
  - intros n o Ho. rewrite (the_objects k d s n 0 H). cbn [N.eqb]. apply (i_other _ _ _ H n o Ho).
Qed.
Lemma inv_tree : forall k d s, inv k d s -> let f := document_objects (contents d) (n_chain d) in
  sm_find (str "Root") (s_trailer (the_section id (s_made s))) = Some (ORef 1 0) /\ entry_at f (ORef 1 0) (str "Pages") the_tree /\
  entry_at f the_tree (str "Count") (OInt (Z.of_nat (List.length (s_order s)))) /\
  entry_at f the_tree (str "Kids") (OArr (map (fun p => ORef p 0) (s_order s))).
Proof.
  intros k d s H f. assert (Hf : forall n, f n 0 = n_objects d n) by (intros n; exact (the_objects k d s n 0 H)).
  split; [reflexivity|]. split; [|split].
  - eexists. cbn [seen_at]. rewrite Hf, (i_catalog _ _ _ H). split; reflexivity.
  - eexists. cbn [seen_at the_tree]. rewrite Hf, (i_tree _ _ _ H). split; reflexivity.
  - eexists. cbn [seen_at the_tree]. rewrite Hf, (i_tree _ _ _ H). split; reflexivity.
Qed.
Theorem new_saved : forall hash order arrange rl l,
  any_order order -> any_arrangement arrange -> (forall v, hash v <> 0) ->
  N.of_nat (List.length l) + 12 < 2 ^ 63 -> good_actions real new_sheet l ->
  exists d0 d file, create_document id producer date = Ok d0 /\ run d0 l = (d, right_answers new_sheet l) /\
    save real hash order arrange d = Ok file /\
    let f := document_objects (contents d) (n_chain d) in
    shows (sheet_after l) f /\
    ((Z.of_nat (List.length file) < 2 ^ 63)%Z ->
     exists t trailer, open_file parser_dictionary rl file = Ok (PDF17, t, ODict trailer) /\
       let g := file_store rl file t in
       (exists root pages count kids refs,
          sm_find (str "Root") trailer = Some root /\ entry_at g root (str "Pages") pages /\
          entry_at g pages (str "Count") count /\ same_document real f g (OInt (Z.of_nat (List.length (s_order (sheet_after l))))) count /\
          entry_at g pages (str "Kids") kids /\ seen_at g kids = OArr refs /\
          Forall2 (same_document real f g) (map (fun p => ORef p 0) (s_order (sheet_after l))) refs) /\
       (exists info a b, sm_find (str "Info") trailer = Some info /\
          entry_at g info (str "Producer") a /\ text_of (seen_at g a) = Some producer /\
          entry_at g info (str "CreationDate") b /\ text_of (seen_at g b) = Some date)).
Proof.
  intros hash order arrange rl l Ho Ha Hh Hl Hg. change (2 ^ 63) with 9223372036854775808 in Hl. destruct create_inv as (d0 & E0 & I0).
  destruct (run_inv l 0 d0 new_sheet I0 Hl Hg) as (d & Ed & I). fold (sheet_after l) in I. set (s := sheet_after l) in *. cbn [Nat.add] in I.
  destruct (saved hash order arrange rl _ d s Ho Ha Hh I Hl) as (file & Efile & Hopen).
  exists d0, d, file. split; [exact E0|]. split; [exact Ed|]. split; [exact Efile|]. intros f. split; [exact (inv_shows _ _ _ I)|]. intros Hlen.
  destruct (Hopen Hlen) as (t & trailer & Eo & Hkeys). exists t, trailer. split; [exact Eo|]. intros g. fold f g in Hkeys.
  assert (Hg' : forall n gen, orderly (g n gen)) by (intros n gen; apply store_orderly).
  assert (Ot : orderly (ODict trailer)) by exact (open_orderly _ _ _ _ _ _ Eo). destruct (orderly_dict _ Ot) as (_ & Oall). rewrite Forall_forall in Oall.
  assert (Hval : forall key v, sm_find key trailer = Some v -> orderly v) by (intros key v E; destruct (found_in _ _ _ E) as (key' & Hin); exact (Oall _ Hin)).
  assert (Hf : forall n, f n 0 = n_objects d n) by (intros n; exact (the_objects _ d s n 0 I)). split.
  - assert (Hr := Hkeys (str "Root") (or_introl eq_refl)). change (sm_find (str "Root") (s_trailer (the_section id (s_made s)))) with (Some (ORef 1 0)) in Hr. cbv iota beta in Hr.
    destruct (sm_find (str "Root") trailer) as [root|] eqn:Er; [|destruct Hr].
    destruct (same_dict real f g Hg' (ORef 1 0) root [(str "Pages", ORef 2 0); (str "Type", OName (str "Catalog"))] (str "Pages") (ORef 2 0) Hr (Hval _ _ Er)) as (m1 & pages & E1 & F1 & O1 & S1);
      [cbn [seen_at]; rewrite Hf; exact (i_catalog _ _ _ I)|left; reflexivity|].
    assert (Et : seen_at f (ORef 2 0) = tree_object (s_order s)) by (cbn [seen_at]; rewrite Hf; exact (i_tree _ _ _ I)). unfold tree_object in Et.
    destruct (same_dict real f g Hg' _ pages _ (str "Count") (OInt (Z.of_nat (List.length (s_order s)))) S1 O1 Et) as (m2 & count & E2 & F2 & O2 & S2); [left; reflexivity|].
    destruct (same_dict real f g Hg' _ pages _ (str "Kids") (OArr (map (fun p => ORef p 0) (s_order s))) S1 O1 Et) as (m3 & kids & E3 & F3 & O3 & S3); [right; left; reflexivity|].
    destruct (same_arr real f g Hg' _ kids _ S3 O3 eq_refl) as (refs & E4 & _ & S4).
    exists root, pages, count, kids, refs. split; [reflexivity|]. split; [exists m1; auto|]. split; [exists m2; auto|]. split; [exact S2|]. split; [exists m3; auto|]. split; [exact E4|exact S4].
  - assert (Hr := Hkeys (str "Info") (or_intror (or_introl eq_refl))). change (sm_find (str "Info") (s_trailer (the_section id (s_made s)))) with (Some (ORef 4 0)) in Hr. cbv iota beta in Hr.
    destruct (sm_find (str "Info") trailer) as [info|] eqn:Er; [|destruct Hr].
    assert (Et : seen_at f (ORef 4 0) = info_object producer date) by (cbn [seen_at]; rewrite Hf; exact (i_info _ _ _ I)). unfold info_object in Et.
    destruct (same_dict real f g Hg' _ info _ (str "Producer") (OLit producer) Hr (Hval _ _ Er) Et) as (m2 & a & E2 & F2 & O2 & S2); [right; left; reflexivity|].
    destruct (same_dict real f g Hg' _ info _ (str "CreationDate") (OLit date) Hr (Hval _ _ Er) Et) as (m3 & b & E3 & F3 & O3 & S3); [left; reflexivity|].
    assert (Htext : forall v x, same_document real f g (OLit v) x -> text_of (seen_at g x) = Some v).
    { intros v x Hs. specialize (Hs 1%nat). cbn [resembles] in Hs. inversion Hs as [| | |? ? w T T'|? ? Nn _ _| | |]; [injection T as ->; exact T'|destruct Nn]. }
    exists info, a, b. split; [reflexivity|]. split; [exists m2; auto|]. split; [exact (Htext _ _ S2)|]. split; [exists m3; auto|exact (Htext _ _ S3)].
Qed.
Theorem new_document : forall l, N.of_nat (List.length l) + 12 < 2 ^ 63 -> good_actions real new_sheet l ->
  exists d0 d, create_document id producer date = Ok d0 /\ run d0 l = (d, right_answers new_sheet l) /\
    let f := document_objects (contents d) (n_chain d) in let s := sheet_after l in
    shows s f /\ entry_at f (ORef 1 0) (str "Pages") the_tree /\
    entry_at f the_tree (str "Count") (OInt (Z.of_nat (List.length (s_order s)))) /\
    entry_at f the_tree (str "Kids") (OArr (map (fun p => ORef p 0) (s_order s))).
Proof.
  intros l Hl Hg. change (2 ^ 63) with 9223372036854775808 in Hl. destruct create_inv as (d0 & E0 & I0). destruct (run_inv l 0 d0 new_sheet I0 Hl Hg) as (d & Ed & I). exists d0, d.
  split; [exact E0|]. split; [exact Ed|]. split; [exact (inv_shows _ _ _ I)|]. apply (inv_tree _ _ _ I).
Qed.
End New.

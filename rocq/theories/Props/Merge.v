(** C27, C28: merging the update sections of a file and closing the gaps between object numbers. *)
From Coq Require Import List NArith ZArith Bool Lia String Sorted.
From Verif.Model Require Import Base SMap Object Containers Xref Chain Merge.
From Verif.Spec Require Import Strings Grammar Containers Chain Merge.
From Verif.Proof Require Import Tac.
From Verif.Proof Require SMap StreamObj Containers Chain Merge.
From Verif.Props Require Chain.
Import ListNotations.
Local Open Scope N_scope.

(** ** C27.  A chain is written newest section first; the writer merges the same sections oldest first. *)

(** Merging succeeds and gives one section, for every chain whose tables hold no entries of object streams. *)
Theorem C27_merge_succeeds : forall hd c, tables_plain c -> c <> [] -> exists m, merge_chain hd (rev c) = Ok [m].
Proof.
  intros hd c Hp Hc. apply Proof.Merge.merge_total; [|intros E; apply Hc; rewrite <- (rev_involutive c), E; reflexivity].
  intros s e Hs. apply Hp. apply in_rev. exact Hs.
Qed.

(** The state of an object whose newest mention describes an object is the same before and after. *)
Theorem C27_live_object_partial : forall hd newer s older e m, merge_chain hd (rev (newer ++ s :: older)) = Ok [m] ->
  numbers_once s -> lists s e -> describes_object e ->
  (forall s' e', In s' newer -> lists s' e' -> xnum e' <> xnum e) ->
  resolve_entry (xnum e) (xgen e) [m] = Some e /\ resolve_entry (xnum e) (xgen e) (newer ++ s :: older) = Some e.
Proof.
  intros hd newer s older e m H Hone Hl Hd Hn. split.
  - rewrite (Proof.Merge.merged_resolve _ _ _ _ _ H), (Proof.Merge.merged_entry hd newer s older e m H Hone Hl Hd).
    + rewrite N.eqb_refl. unfold describes_object in Hd. destruct (xdata e); [tauto|reflexivity|reflexivity].
    + intros s' e' Hs' Hl' En. exfalso. eapply Hn; eauto.
  - rewrite (Chain.C24_newest_wins_partial _ (xgen e) newer s older e); [|..|reflexivity].
    + unfold describes_object in Hd. destruct (xdata e); [tauto|reflexivity|reflexivity].
    + intros s' e' Hs' He. destruct (Proof.Merge.entry_lists _ _ _ He) as [Hl' En]. eapply Hn; eauto.
    + apply Proof.Merge.once_entry; assumption.
Qed.

(** A number that no section ever used for an object (unknown, or free everywhere) is null before and after, for every generation. *)
Theorem C27_never_used : forall hd c m n, merge_chain hd (rev c) = Ok [m] -> n <> 0 ->
  (forall s e, In s c -> lists s e -> xnum e = n -> exists next, xdata e = KFree next) ->
  forall g, resolve_entry n g [m] = None /\ resolve_entry n g c = None.
Proof.
  intros hd c m n H Hn Hfree g. split.
  - rewrite (Proof.Merge.merged_resolve _ _ _ _ _ H), (Proof.Merge.merged_none hd c m n H Hn); [reflexivity|].
    intros s e Hs Hl En Hd. destruct (Hfree s e Hs Hl En) as [next E]. unfold describes_object in Hd. rewrite E in Hd. exact Hd.
  - unfold resolve_entry. destruct (chain_entry n g c) as [e|] eqn:E; [|reflexivity].
    apply Chain.C24_first_section_with_generation in E. destruct E as (a & s & b & -> & He & _). destruct (Proof.Merge.entry_lists _ _ _ He) as [Hl En].
    destruct (Hfree s e) as [next ->]; [apply in_or_app; right; left; reflexivity|exact Hl|exact En|reflexivity].
Qed.

(** Nothing is invented: what the merged section resolves was described by some section under that number and generation. *)
Theorem C27_nothing_invented : forall hd c m n g e, merge_chain hd (rev c) = Ok [m] -> resolve_entry n g [m] = Some e ->
  exists s, In s c /\ lists s e /\ describes_object e /\ xnum e = n /\ xgen e = g.
Proof.
  intros hd c m n g e H R. rewrite (Proof.Merge.merged_resolve _ _ _ _ _ H), (Proof.Merge.merged_find _ _ _ H) in R.
  destruct (find (Proof.Merge.used_for n) (Proof.Merge.newest_first c)) as [x|] eqn:E.
  - apply find_some in E. destruct E as [Hin Hx]. unfold Proof.Merge.newest_first in Hin. apply in_flat_map in Hin. destruct Hin as (s & Hs & Hin).
    apply in_rev, Proof.Merge.items_lists in Hin. unfold Proof.Merge.used_for in Hx. apply andb_true_iff in Hx. destruct Hx as [X1 X2].
    apply Proof.Merge.describes_in_use in X2. destruct (xgen x =? g) eqn:Eg; [|discriminate].
    assert (x = e) by (unfold describes_object in X2; destruct (xdata x); [tauto|congruence|congruence]). subst x.
    exists s. split; [exact Hs|split; [exact Hin|split; [exact X2|split; lia]]].
  - destruct (n =? 0); [|discriminate]. cbn [xgen xdata] in R. destruct (65535 =? g); discriminate.
Qed.

(** When no section is a stream, the merged trailer names the catalogue, the information dictionary, the identifier and the encryption
    of the newest section, and has no link to earlier sections. *)
Theorem C27_trailer_of_tables : forall hd newest older m, merge_chain hd (rev (newest :: older)) = Ok [m] ->
  (forall s, In s (newest :: older) -> s_kind s = STable /\ s_hybrid s = None) ->
  (forall key, In key [str "Root"; str "Info"; str "ID"; str "Encrypt"] -> sm_find key (s_trailer m) = sm_find key (s_trailer newest)) /\
  sm_find (str "Prev") (s_trailer m) = None.
Proof.
  intros hd newest older m H Ht.
  assert (Hk : merged_kind hd (rev (newest :: older)) = (STable, [])).
  { assert (G : forall c, (forall s, In s c -> s_kind s = STable /\ s_hybrid s = None) -> merged_kind hd c = (STable, [])).
    { induction c as [|s c IH]; intros G; [reflexivity|]. cbn [merged_kind]. destruct (G s (or_introl eq_refl)) as [-> ->]. apply IH. intros x Hx. apply G. right. exact Hx. }
    apply G. intros s Hs. apply Ht. apply in_rev. exact Hs. }
  split; [|exact (Proof.Merge.merged_no_prev _ _ _ _ _ H Hk Proof.Merge.agrees_nil)].
  intros key Hin. cbn [rev] in H, Hk.
  rewrite (Proof.Merge.merged_trailer hd _ newest (rev older) m eq_refl H _ _ Hk Proof.Merge.agrees_nil).
  - cbn [sm_find]. destruct (list_eq_dec N.eq_dec key (str "Size")) as [E|_].
    + exfalso. revert E. repeat (destruct Hin as [<-|Hin]; [discriminate|]). destruct Hin.
    + destruct (in_dec (list_eq_dec N.eq_dec) key trailer_keys) as [_|Hno]; [reflexivity|]. exfalso. apply Hno. unfold trailer_keys.
      repeat (destruct Hin as [<-|Hin]; [cbn; tauto|]). destruct Hin.
  - repeat (destruct Hin as [<-|Hin]; [apply Proof.StreamObj.str_bytes|]). destruct Hin.
  - intros E. subst key. repeat (destruct Hin as [Hin|Hin]; [discriminate|]). destruct Hin.
Qed.

(** Deleting free entries keeps every entry that describes an object, in order, and deletes nothing but entries that do not. *)
Theorem C27_freed_removal : forall l, (forall e, In e l -> describes_object e -> In e (remove_freed l)) /\
  (forall e, In e (remove_freed l) -> In e l) /\
  (forall e before after, l = before ++ e :: after -> before <> [] -> ~ describes_object e -> StronglySorted N.lt (map xnum l) -> ~ In e (remove_freed l)) /\
  (StronglySorted N.lt (map xnum l) -> StronglySorted N.lt (map xnum (remove_freed l))).
Proof.
  intros l. repeat split.
  - intros e Hin Hd. destruct l as [|x t]; [destruct Hin|]. destruct Hin as [->|Hin]; [left; reflexivity|]. right. apply filter_In.
    split; [exact Hin|apply Proof.Merge.describes_in_use; exact Hd].
  - intros e Hin. destruct l as [|x t]; [destruct Hin|]. destruct Hin as [->|Hin]; [left; reflexivity|]. right. apply filter_In in Hin. apply Hin.
  - intros e [|x b] a -> Hb Hd Hs Hin; [congruence|]. cbn [app remove_freed] in Hin. cbn [app map] in Hs. inversion Hs as [|? ? Hs1 Hs2]; subst.
    destruct Hin as [->|Hin].
    + rewrite Forall_forall in Hs2. specialize (Hs2 (xnum e)). assert (xnum e < xnum e); [|lia]. apply Hs2. apply in_map. apply in_or_app. right. left. reflexivity.
    + apply filter_In in Hin. destruct Hin as [_ Hu]. apply Hd. apply Proof.Merge.describes_in_use. exact Hu.
  - destruct l as [|x t]; intros Hs; [exact Hs|]. cbn [remove_freed map] in *. inversion Hs as [|? ? Hs1 Hs2]; subst. clear Hs. constructor.
    + clear Hs2. induction t as [|y t IH]; [constructor|]. cbn [map filter] in *. inversion Hs1 as [|? ? H1 H2]; subst.
      destruct (entry_in_use y); [|apply IH; exact H1]. cbn [map]. constructor; [apply IH; exact H1|].
      rewrite Forall_forall in *. intros z Hz. apply in_map_iff in Hz. destruct Hz as (w & <- & Hw). apply H2. apply in_map. apply filter_In in Hw. apply Hw.
    + rewrite Forall_forall in *. intros z Hz. apply in_map_iff in Hz. destruct Hz as (w & <- & Hw). apply Hs2. apply in_map. apply filter_In in Hw. apply Hw.
Qed.

(** A deleted object comes back: the newest section says object 3 is free, the file does not show it, the merged file does. *)
Theorem C27_deleted_object_refuted : exists newest older m,
  (forall hd, merge_chain hd (rev [newest; older]) = Ok [m]) /\
  resolve_entry 3 0 [newest; older] = None /\ resolve_entry 3 0 [m] = Some {| xnum := 3; xgen := 0; xdata := KUsed 17 true |}.
Proof.
  exists {| s_kind := STable; s_entries := [{| xnum := 3; xgen := 0; xdata := KFree 0 |}]; s_hybrid := None; s_trailer := [] |},
    {| s_kind := STable; s_entries := [{| xnum := 3; xgen := 0; xdata := KUsed 17 true |}]; s_hybrid := None; s_trailer := [] |}.
  eexists. split; [intros hd; vm_compute; reflexivity|]. split; vm_compute; reflexivity.
Qed.

(** A table and its hybrid stream that both list a number: before, the table's entry is used, afterwards the stream's. *)
Theorem C27_hybrid_entry_refuted : exists s m, (forall hd, hd s = [] -> merge_chain hd (rev [s]) = Ok [m]) /\
  resolve_entry 3 0 [s] = Some {| xnum := 3; xgen := 0; xdata := KUsed 17 true |} /\
  resolve_entry 3 0 [m] = Some {| xnum := 3; xgen := 0; xdata := KUsed 99 true |}.
Proof.
  exists {| s_kind := STable; s_entries := [{| xnum := 3; xgen := 0; xdata := KUsed 17 true |}];
            s_hybrid := Some [{| xnum := 3; xgen := 0; xdata := KUsed 99 true |}]; s_trailer := [] |}.
  eexists. split; [intros hd E; unfold merge_chain; cbn [rev app merged_kind s_kind s_hybrid]; rewrite E; vm_compute; reflexivity|]. split; vm_compute; reflexivity.
Qed.

(** When the sections are streams the merged trailer is the one of the oldest section, for every file: an update that changed the
    catalogue is lost. *)
Theorem C27_trailer_of_streams_refuted : forall hd newest middle oldest m v, s_kind oldest = SStream ->
  ordered (s_trailer oldest) -> Forall (fun e => all_bytes (fst e)) (s_trailer oldest) ->
  sm_find (str "Root") (s_trailer oldest) = Some v ->
  merge_chain hd (rev (newest :: middle ++ [oldest])) = Ok [m] -> sm_find (str "Root") (s_trailer m) = Some v.
Proof.
  intros hd newest middle oldest m v Hk Ho Hb Hf H. cbn [rev] in H. rewrite rev_app_distr in H. cbn [rev app] in H.
  rewrite (Proof.Merge.merged_trailer hd (oldest :: rev middle ++ [newest]) newest (oldest :: rev middle) m eq_refl H (s_trailer oldest) SStream).
  - rewrite Hf. reflexivity.
  - cbn [merged_kind]. rewrite Hk. reflexivity.
  - split; [exact Ho|split; [exact Hb|reflexivity]].
  - apply Proof.StreamObj.str_bytes.
  - discriminate.
Qed.

(** three sections: object 1 rewritten twice, object 2 only in the oldest, object 3 added in the middle one *)
Definition sample_section (l : list xentry) (root : N) : section :=
  {| s_kind := STable; s_entries := l; s_hybrid := None; s_trailer := [(str "Prev", OInt 9); (str "Root", ORef root 0)] |}.
Definition used (n : N) (off : Z) : xentry := {| xnum := n; xgen := 0; xdata := KUsed off true |}.
Example C27_case : exists m,
  (forall hd, merge_chain hd (rev [sample_section [used 1 300] 1; sample_section [used 1 200; used 3 210] 1;
                                   sample_section [{| xnum := 0; xgen := 65535; xdata := KFree 0 |}; used 1 10; used 2 50] 2]) = Ok [m]) /\
  s_entries m = [{| xnum := 0; xgen := 65535; xdata := KFree 0 |}; used 1 300; used 2 50; used 3 210] /\
  sm_find (str "Root") (s_trailer m) = Some (ORef 1 0) /\
  numbers_once (sample_section [used 1 200; used 3 210] 1) /\ describes_object (used 3 210).
Proof.
  eexists. split; [intros hd; vm_compute; reflexivity|]. split; [reflexivity|]. split; [vm_compute; reflexivity|]. split; [|reflexivity].
  intros x y Hx Hy E. destruct Hx as [Hx|(_ & h & Hh & _)]; [|discriminate]. destruct Hy as [Hy|(_ & h & Hh & _)]; [|discriminate].
  cbn in Hx, Hy. destruct Hx as [<-|[<-|[]]], Hy as [<-|[<-|[]]]; try reflexivity; discriminate.
Qed.

(** ** C28 *)

(** One section (the result of merging): every entry gets its rank as number, keeps its object, generation and place in the file, and
    entries of object streams name the new number of their stream. *)
Theorem C28_renumbered : forall (A : Type) (l : list (xentry * A)), StronglySorted N.lt (map (fun p => xnum (fst p)) l) ->
  squash [l] = [map (closed_up l) l].
Proof. intros A l H. apply Proof.Merge.squash_single. exact H. Qed.

(** The new numbers are 0, 1, 2, ... without gap or repetition, in the old order; two entries never get the same number. *)
Theorem C28_dense : forall (A : Type) (l l' : list (xentry * A)), StronglySorted N.lt (map (fun p => xnum (fst p)) l) -> squash [l] = [l'] ->
  map (fun p => xnum (fst p)) l' = map N.of_nat (List.seq 0 (List.length l)) /\ map snd l' = map snd l /\
  forall p q, In p l -> In q l -> xnum (fst p) < xnum (fst q) -> rank l (xnum (fst p)) < rank l (xnum (fst q)).
Proof.
  intros A l l' Hs H. rewrite Proof.Merge.squash_single in H by exact Hs. inversion H; subst l'. clear H. split; [|split].
  - rewrite map_map. cbn [closed_up fst xnum]. rewrite Proof.Merge.ranks_dense by exact Hs.
    assert (G : forall k i, nrange i k = map (fun j => i + N.of_nat j) (List.seq 0 k)).
    { clear. induction k as [|k IH]; intros i; [reflexivity|]. cbn [nrange List.seq map]. rewrite N.add_0_r, IH. f_equal.
      rewrite <- seq_shift, map_map. apply map_ext. intros j. lia. }
    rewrite G. apply map_ext. intros j. lia.
  - rewrite map_map. reflexivity.
  - intros p q Hp Hq Hlt. unfold rank.
    assert (Hincl : forall (l : list (xentry * A)), le (List.length (filter (fun x => xnum (fst x) <? xnum (fst p)) l)) (List.length (filter (fun x => xnum (fst x) <? xnum (fst q)) l))).
    { clear - Hlt. induction l as [|x l IH]; [cbn; lia|]. cbn [filter]. destruct (xnum (fst x) <? xnum (fst p)) eqn:E1, (xnum (fst x) <? xnum (fst q)) eqn:E2; cbn [List.length]; lia. }
    assert (Hstrict : lt (List.length (filter (fun x => xnum (fst x) <? xnum (fst p)) l)) (List.length (filter (fun x => xnum (fst x) <? xnum (fst q)) l))); [|lia].
    clear - Hp Hlt Hincl. induction l as [|x l IH]; [destruct Hp|]. cbn [filter]. specialize (Hincl l). destruct Hp as [->|Hp].
    + replace (xnum (fst p) <? xnum (fst p)) with false by lia. replace (xnum (fst p) <? xnum (fst q)) with true by lia. cbn [List.length]. lia.
    + specialize (IH Hp). destruct (xnum (fst x) <? xnum (fst p)) eqn:E1, (xnum (fst x) <? xnum (fst q)) eqn:E2; cbn [List.length]; lia.
Qed.

(** With several sections (merging switched off) an object can be lost: the running number of the second section meets a number that
    a later entry of that section still has, and moving that entry removes both. *)
Theorem C28_sections_refuted : exists c : list (list (xentry * N)),
  (forall l, In l c -> StronglySorted N.lt (map (fun p => xnum (fst p)) l)) /\
  In 77 (map snd (List.concat c)) /\ ~ In 77 (map snd (List.concat (squash c))).
Proof.
  exists [[(used 0 0, 10); (used 1 5, 11); (used 2 6, 12)]; [(used 1 7, 77); (used 3 8, 22)]]. split; [|split].
  - intros l [<-|[<-|[]]]; cbn; repeat constructor; lia.
  - cbn. tauto.
  - vm_compute. intros H. repeat (destruct H as [H|H]; [discriminate|]). exact H.
Qed.

(** The list of free numbers is not renumbered: a free entry keeps naming the old number. *)
Theorem C28_next_free_refuted : exists (l : list (xentry * N)) next,
  StronglySorted N.lt (map (fun p => xnum (fst p)) l) /\ In next (map (fun p => xnum (fst p)) l) /\ rank l next <> next /\
  In (KFree next) (map (fun p => xdata (fst p)) (List.concat (squash [l]))).
Proof.
  exists [({| xnum := 0; xgen := 65535; xdata := KFree 7 |}, 0); (used 4 30, 1); ({| xnum := 7; xgen := 1; xdata := KFree 0 |}, 2)], 7.
  split; [cbn; repeat constructor; lia|]. split; [cbn; tauto|]. split; [vm_compute; discriminate|]. vm_compute. tauto.
Qed.

Example C28_case :
  squash [[(used 0 0, 10); (used 4 30, 11); ({| xnum := 7; xgen := 0; xdata := KComp 9 0 |}, 12); (used 9 80, 13)]]
  = [[(used 0 0, 10); (used 1 30, 11); ({| xnum := 2; xgen := 0; xdata := KComp 3 0 |}, 12); (used 3 80, 13)]].
Proof. vm_compute. reflexivity. Qed.

Print Assumptions C27_merge_succeeds.
Print Assumptions C27_live_object_partial.
Print Assumptions C27_never_used.
Print Assumptions C27_nothing_invented.
Print Assumptions C27_trailer_of_tables.
Print Assumptions C27_freed_removal.
Print Assumptions C27_deleted_object_refuted.
Print Assumptions C27_hybrid_entry_refuted.
Print Assumptions C27_trailer_of_streams_refuted.
Print Assumptions C28_renumbered.
Print Assumptions C28_dense.
Print Assumptions C28_sections_refuted.
Print Assumptions C28_next_free_refuted.

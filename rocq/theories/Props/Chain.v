(** C23, C24, C25: allocation, lookup and reading of the chain of cross-reference sections. *)
From Coq Require Import List NArith ZArith Bool Lia Relations String.
From Verif.Model Require Import Base SMap Object Token Parser Xref FileWrite Chain.
From Verif.Spec Require Import Chain.
From Verif.Proof Require Import Tac.
From Verif.Proof Require Chain.
Import ListNotations.
Local Open Scope N_scope.

(** ** C23 *)

(** An allocated number is in no section of the file, and is the smallest such number from the cursor on. *)
Theorem C23_number_unused : forall st n st', allocate st = Ok (n, st') ->
  ~ present_in n st /\ a_next st <= n < 2 ^ 64 - 1 /\ (forall k, a_next st <= k < n -> present_in k st).
Proof.
  intros st n st' H. apply Proof.Chain.allocate_ok in H. destruct H as (c' & H & ->).
  apply Proof.Chain.allocate_from_ok in H. destruct H as (H1 & H2 & H3 & _). change (2 ^ 64 - 1) with max_u64.
  split; [rewrite <- Proof.Chain.present_start; exact H2|split; [exact H1|]]. intros k Hk. apply Proof.Chain.present_start. apply H3. exact Hk.
Qed.

(** The new object can be looked up under its number and generation 0, and all other lookups give what they gave before. *)
Theorem C23_entry_added : forall st n st', allocate st = Ok (n, st') ->
  exists c', a_chain st' = Some c' /\
    resolve_entry n 0 c' = Some {| xnum := n; xgen := 0; xdata := KUsed (-1) true |} /\
    forall k g, k <> n -> resolve_entry k g c' = match a_chain st with Some c => resolve_entry k g c | None => None end.
Proof.
  intros st n st' H. apply Proof.Chain.allocate_ok in H. destruct H as (c' & H & ->). exists c'. split; [reflexivity|].
  apply Proof.Chain.allocate_from_ok in H. destruct H as (_ & _ & _ & s & t & E & ->). split.
  - unfold resolve_entry. change (chain_entry n 0) with (chain_entry (xnum (new_entry n)) (xgen (new_entry n))).
    rewrite Proof.Chain.chain_entry_first_same. reflexivity.
  - intros k g Hk. unfold resolve_entry. rewrite Proof.Chain.chain_entry_first_other by (cbn; congruence). rewrite <- E.
    unfold Proof.Chain.start_chain. destruct (a_chain st); reflexivity.
Qed.

(** Allocation always returns; it fails only when every remaining number is taken, and is undefined only on a chain that exists but
    has no section. *)
Theorem C23_allocation_ends : forall st,
  match allocate st with
  | Ok _ => True
  | Throw e => e = EGeneral /\ forall k, a_next st <= k < 2 ^ 64 - 1 -> present_in k st
  | Undef => a_chain st = Some []
  | NoFuel => False
  end.
Proof.
  intros st. unfold allocate. change (match a_chain st with Some c => c | None => [empty_table] end) with (Proof.Chain.start_chain st).
  destruct (Proof.Chain.allocate_from_other (S (chain_size (Proof.Chain.start_chain st))) (a_next st) (Proof.Chain.start_chain st)) as (H1 & H2 & H3).
  destruct (allocate_from _ _ _) as [[i c']|e| |] eqn:E; cbn [rbind].
  - exact I.
  - destruct (H2 _ eq_refl) as [G1 G2]. split; [exact G1|]. intros k Hk. apply Proof.Chain.present_start. apply G2. exact Hk.
  - destruct (H3 eq_refl) as [G _]. unfold Proof.Chain.start_chain in G. destruct (a_chain st); [rewrite G; reflexivity|discriminate].
  - eapply Proof.Chain.allocate_from_nofuel. exact E.
Qed.

(** Over every history the numbers handed out are all different (they increase), whatever happens to the sections in between. *)
Theorem C23_history_distinct : forall st ns st', history st ns st' ->
  NoDup ns /\ (forall n, In n ns -> a_next st <= n) /\ (forall i j a b, (i < j)%nat -> nth_error ns i = Some a -> nth_error ns j = Some b -> a < b).
Proof.
  intros st ns st' H.
  assert (G : (forall n, In n ns -> a_next st <= n) /\ (forall i j a b, (i < j)%nat -> nth_error ns i = Some a -> nth_error ns j = Some b -> a < b)).
  { induction H as [|st n st1 ns st2 H _ [I1 I2]|st c num gen ns st2 _ _ IH|st c ns st2 _ IH]; try exact IH.
    - split; [intros n []|]. intros i j a b _ E. destruct i; discriminate.
    - apply Proof.Chain.allocate_ok in H. destruct H as (c' & H & ->). cbn [a_next] in *.
      apply Proof.Chain.allocate_from_ok in H. destruct H as (H & _). split.
      + intros m [<-|Hm]; [lia|]. apply I1 in Hm. lia.
      + intros i j a b Hij Hi Hj. destruct j as [|j]; [lia|]. cbn [nth_error] in Hj. destruct i as [|i]; cbn [nth_error] in Hi.
        * inversion Hi; subst. apply nth_error_In in Hj. apply I1 in Hj. lia.
        * eapply (I2 i j); [lia|eassumption|eassumption]. }
  destruct G as [G1 G2]. split; [|split; assumption].
  apply NoDup_nth_error. intros i j Hi E. destruct (nth_error ns i) as [a|] eqn:Ei; [|apply nth_error_None in Ei; lia].
  destruct (Nat.lt_trichotomy i j) as [L|[L|L]]; [|exact L|].
  - assert (a < a) by (eapply (G2 i j); eauto). lia.
  - assert (a < a) by (eapply (G2 j i); eauto). lia.
Qed.

(** Numbers that some section has at the start are never handed out, even after their objects were released. *)
Theorem C23_history_fresh : forall st ns st', quiet_history st ns st' -> forall n, present_in n st -> ~ In n ns.
Proof.
  intros st ns st' H. induction H as [|st m st1 ns st2 H _ IH|st c num gen ns st2 E _ IH]; intros n Hn.
  - intros [].
  - intros [->|Hin].
    + destruct (C23_number_unused _ _ _ H) as [G _]. exact (G Hn).
    + apply (IH n); [|exact Hin]. eapply Proof.Chain.allocate_keeps; eassumption.
  - apply IH. destruct Hn as (c' & E' & Hn). rewrite E in E'. inversion E'; subst c'. eexists. split; [reflexivity|].
    apply Proof.Chain.release_keeps. exact Hn.
Qed.

(** A chain that exists without any section: the end of the list is dereferenced. *)
Theorem C23_empty_chain_refuted : exists st, allocate st = Undef.
Proof. exists {| a_next := 0; a_chain := Some [] |}. vm_compute. reflexivity. Qed.
(** The first number of a file created from nothing is 0, which the format reserves for the head of the free list. *)
Theorem C23_number_zero_refuted : exists st', allocate {| a_next := 0; a_chain := None |} = Ok (0, st').
Proof. eexists. vm_compute. reflexivity. Qed.

Definition two_sections : chain :=
  [ {| s_kind := STable; s_entries := [ {| xnum := 0; xgen := 65535; xdata := KFree 0 |}; {| xnum := 2; xgen := 0; xdata := KUsed 900 true |} ];
       s_hybrid := Some [ {| xnum := 4; xgen := 0; xdata := KComp 2 0 |} ]; s_trailer := [] |};
    {| s_kind := SStream; s_entries := [ {| xnum := 1; xgen := 0; xdata := KUsed 20 true |}; {| xnum := 2; xgen := 0; xdata := KUsed 77 true |};
                                         {| xnum := 3; xgen := 1; xdata := KFree 0 |} ]; s_hybrid := None; s_trailer := [] |} ].
Example C23_case : exists st', quiet_history {| a_next := 0; a_chain := Some two_sections |} [5; 6] st' /\ present_in 4 {| a_next := 0; a_chain := Some two_sections |}.
Proof.
  eexists. split.
  - eapply q_allocate; [vm_compute; reflexivity|]. eapply (q_release _ _ 1 0); [reflexivity|]. eapply q_allocate; [vm_compute; reflexivity|]. apply q_done.
  - exists two_sections. split; [reflexivity|]. eexists. exists {| xnum := 4; xgen := 0; xdata := KComp 2 0 |}.
    split; [left; reflexivity|split; [right; split; [reflexivity|eexists; split; [reflexivity|left; reflexivity]]|reflexivity]].
Qed.

(** ** C24 *)

(** The lookup gives the entry of the first section, newest first, that has the number with that generation. *)
Theorem C24_first_section_with_generation : forall n g c e, chain_entry n g c = Some e <->
  exists newer s older, c = newer ++ s :: older /\ entry_of s n e /\ xgen e = g /\
    forall s' e', In s' newer -> entry_of s' n e' -> xgen e' <> g.
Proof.
  intros n g. induction c as [|s c IH]; intros e; cbn [chain_entry].
  - split; [discriminate|]. intros (a & s & b & E & _). destruct a; discriminate.
  - assert (Skip : (forall e', entry_of s n e' -> xgen e' <> g) ->
      (chain_entry n g c = Some e <-> exists newer s0 older, s :: c = newer ++ s0 :: older /\ entry_of s0 n e /\ xgen e = g /\
        forall s' e', In s' newer -> entry_of s' n e' -> xgen e' <> g)).
    { intros Hs. rewrite IH. split.
      - intros (a & s0 & b & -> & H1 & H2 & H3). exists (s :: a), s0, b. split; [reflexivity|split; [exact H1|split; [exact H2|]]].
        intros s' e' [<-|Hin]; [apply Hs|apply H3; exact Hin].
      - intros (a & s0 & b & E & H1 & H2 & H3). destruct a as [|a0 a]; inversion E; subst; [exfalso; eapply Hs; eauto|].
        exists a, s0, b. split; [reflexivity|split; [exact H1|split; [reflexivity|]]]. intros s' e' Hin. apply H3. right. exact Hin. }
    destruct (sec_find n s) as [e1|] eqn:E1.
    + destruct (xgen e1 =? g) eqn:Eg.
      * apply Proof.Chain.sec_find_entry in E1. split.
        -- intros H. inversion H; subst e1. exists [], s, c. split; [reflexivity|split; [exact E1|split; [lia|intros ? ? []]]].
        -- intros (a & s0 & b & E & H1 & H2 & H3). destruct a as [|a0 a]; inversion E; subst.
           ++ apply Proof.Chain.sec_find_entry in E1. apply Proof.Chain.sec_find_entry in H1. congruence.
           ++ exfalso. eapply (H3 a0 e1); [left; reflexivity|exact E1|lia].
      * apply Skip. intros e' He'. apply Proof.Chain.sec_find_entry in He'. assert (e' = e1) by congruence. subst. lia.
    + apply Skip. intros e' He'. apply Proof.Chain.sec_find_entry in He'. congruence.
Qed.

(** When the newest section that has the number has it with the requested generation, its entry is what the object resolves to;
    when it is free there, the object is null. *)
Theorem C24_newest_wins_partial : forall n g newer s older e,
  (forall s' e', In s' newer -> ~ entry_of s' n e') -> entry_of s n e -> xgen e = g ->
  resolve_entry n g (newer ++ s :: older) = match xdata e with KFree _ => None | _ => Some e end.
Proof.
  intros n g newer s older e Hn He Hg. unfold resolve_entry.
  replace (chain_entry n g (newer ++ s :: older)) with (Some e); [reflexivity|]. symmetry. apply C24_first_section_with_generation.
  exists newer, s, older. split; [reflexivity|split; [exact He|split; [exact Hg|]]]. intros s' e' Hin H. exfalso. eapply Hn; eauto.
Qed.

(** An object no section has with that generation is null. *)
Theorem C24_unknown_object_null : forall n g c, (forall s e, In s c -> entry_of s n e -> xgen e <> g) -> resolve_entry n g c = None.
Proof.
  intros n g c H. unfold resolve_entry. destruct (chain_entry n g c) as [e|] eqn:E; [|reflexivity].
  apply C24_first_section_with_generation in E. destruct E as (a & s & b & -> & H1 & H2 & _). exfalso. eapply H; [|exact H1|exact H2].
  apply in_or_app. right. left. reflexivity.
Qed.

(** A cross-reference stream is itself an object of the file.  Reading one succeeds only when the stream has an entry in use under its own
    number and its own generation: among its own entries, or in the chain read before, which grows by at most one table holding just
    that entry. *)
Theorem C24_own_stream_entry : forall decode c n g m data c' sec, parse_stream_section decode c n g m data = Ok (c', sec) ->
  ((exists e off u, In e (s_entries sec) /\ xnum e = n /\ xgen e = g /\ xdata e = KUsed off u) /\ c' = c) \/
  (exists e off u, resolve_entry n g c' = Some e /\ xdata e = KUsed off u /\
    (c' = c \/ ((forall s e', In s c -> entry_of s n e' -> xgen e' <> g) /\ exists t, c' = c ++ [t] /\ s_entries t = [e]))).
Proof.
  intros decode c n g m data c' sec H. unfold parse_stream_section in H.
  apply rbind_ok in H. destruct H as (w & _ & H). apply rbind_ok in H. destruct H as (size & _ & H).
  apply rbind_ok in H. destruct H as (index & _ & H). apply rbind_ok in H. destruct H as (body & _ & H).
  apply rbind_ok in H. destruct H as (entries & _ & H). cbv zeta in H.
  destruct (names_self n g entries) eqn:Es.
  - injection H as H1 H2; assert (H := conj H1 H2). destruct H as [<- <-]. left. split; [|reflexivity]. cbn [s_entries].
    unfold names_self in Es. apply existsb_exists in Es. destruct Es as (e & He & Es).
    destruct (xdata e) as [|off u|] eqn:Ed; try discriminate Es. exists e, off, u.
    apply andb_true_iff in Es. destruct Es as [E1 E2]. apply N.eqb_eq in E1, E2. auto.
  - right. destruct (chain_entry n g c) as [e|] eqn:Ec.
    + rewrite Ec in H. destruct (xdata e) as [|off u|] eqn:Ed; try discriminate H.
      injection H as H1 H2; assert (H := conj H1 H2). destruct H as [<- _]. exists e, off, u.
      split; [unfold resolve_entry; rewrite Ec, Ed; reflexivity|split; [exact Ed|left; reflexivity]].
    + assert (Skip : forall c0 : chain, chain_entry n g c0 = None -> forall s e', In s c0 -> sec_find n s = Some e' -> xgen e' <> g).
      { clear. induction c0 as [|s0 t IH]; [intros _ s e' []|]. cbn [chain_entry]. intros E s e' Hs He' Hg.
        destruct Hs as [->|Hs].
        - rewrite He' in E. rewrite (proj2 (N.eqb_eq _ _) Hg) in E. discriminate E.
        - destruct (sec_find n s0) as [e0|]; [destruct (xgen e0 =? g); [discriminate E|]|]; exact (IH E _ _ Hs He' Hg). }
      specialize (Skip c Ec). cbv zeta in H.
      match type of H with context [c ++ [?q]] => remember q as t eqn:Et end.
      assert (E2 : chain_entry n g (c ++ [t]) = Some {| xnum := n; xgen := g; xdata := KUsed (-1) true |}).
      { rewrite Proof.Chain.chain_entry_app_skip by exact Skip. rewrite Et. cbn [chain_entry sec_find s_entries xfind find xnum].
        unfold sec_find, xfind. cbn [s_entries find xnum]. rewrite N.eqb_refl. cbn [xgen]. rewrite N.eqb_refl. reflexivity. }
      rewrite E2 in H. cbn [xdata] in H. injection H as H1 H2; assert (H := conj H1 H2). destruct H as [<- _].
      eexists. exists (-1)%Z, true. split; [unfold resolve_entry; rewrite E2; cbn [xdata]; reflexivity|split; [reflexivity|right]].
      split; [intros s e' Hs He'; apply Skip with s; [exact Hs|apply Proof.Chain.sec_find_entry; exact He']|].
      exists t. split; [reflexivity|rewrite Et; reflexivity].
Qed.

Definition small_stream_dict : list (bytes * obj) :=
  [(str "Index", OArr [OInt 7; OInt 1]); (str "Size", OInt 8); (str "W", OArr [OInt 1; OInt 2; OInt 1])].
Example C24_own_case :
  (exists sec, parse_stream_section (fun _ b => Ok b) two_sections 7 0 small_stream_dict [1; 1; 44; 0] = Ok (two_sections, sec)) /\
  (exists t sec, parse_stream_section (fun _ b => Ok b) two_sections 7 1 small_stream_dict [1; 1; 44; 0] = Ok (two_sections ++ [t], sec)).
Proof. split; [eexists|eexists; eexists]; vm_compute; reflexivity. Qed.

(** An object deleted by an update (its entry is free, with the generation for its next use) still resolves to the older revision. *)
Theorem C24_deleted_object_refuted : exists n g newest older e,
  entry_of newest n {| xnum := n; xgen := g + 1; xdata := KFree 0 |} /\
  resolve_entry n g [newest; older] = Some e /\ entry_of older n e.
Proof.
  exists 3, 0, {| s_kind := STable; s_entries := [{| xnum := 3; xgen := 1; xdata := KFree 0 |}]; s_hybrid := None; s_trailer := [] |},
    {| s_kind := STable; s_entries := [{| xnum := 3; xgen := 0; xdata := KUsed 17 true |}]; s_hybrid := None; s_trailer := [] |},
    {| xnum := 3; xgen := 0; xdata := KUsed 17 true |}.
  split; [left; exists [], []; split; [reflexivity|split; [reflexivity|intros ? []]]|].
  split; [vm_compute; reflexivity|]. left. exists [], []. split; [reflexivity|split; [reflexivity|intros ? []]].
Qed.

Example C24_case : resolve_entry 2 0 two_sections = Some {| xnum := 2; xgen := 0; xdata := KUsed 900 true |}
  /\ resolve_entry 4 0 two_sections = Some {| xnum := 4; xgen := 0; xdata := KComp 2 0 |}
  /\ resolve_entry 1 0 two_sections = Some {| xnum := 1; xgen := 0; xdata := KUsed 20 true |} /\ resolve_entry 3 1 two_sections = None.
Proof. vm_compute. auto. Qed.

(** ** C58 *)

(** After an object was released its number is still taken, and all objects with other numbers are found as before. *)
Theorem C58_others_unchanged : forall n g c c', release_entry n g c = (c', true) ->
  present n c' /\ forall k h, k <> n -> chain_entry k h c' = chain_entry k h c.
Proof.
  intros n g c c' H. destruct (Proof.Chain.release_split _ _ _ _ H) as (a & s & o & e & -> & H1 & H2 & -> & H3). split.
  - apply Proof.Chain.contains_present, existsb_exists. eexists. split; [apply in_or_app; right; left; reflexivity|].
    unfold sec_contains. change n with (xnum {| xnum := n; xgen := 0; xdata := KFree 0 |}). rewrite Proof.Chain.sec_find_with_same. reflexivity.
  - intros k h Hk. apply Proof.Chain.chain_entry_app. cbn [chain_entry]. rewrite Proof.Chain.sec_find_with_other by (cbn; congruence). reflexivity.
Qed.

(** A released object of generation 0 is null from then on, whatever older sections say; so is one of another generation that only
    one section has. *)
Theorem C58_released_null_partial : forall n g c c', release_entry n g c = (c', true) ->
  g = 0 \/ (forall a b d s s' e e', c = a ++ s :: b ++ s' :: d -> entry_of s n e -> xgen e = g -> entry_of s' n e' -> xgen e' <> g) ->
  resolve_entry n g c' = None.
Proof.
  intros n g c c' H Hg. destruct (Proof.Chain.release_split _ _ _ _ H) as (a & s & o & e & -> & H1 & H2 & -> & H3).
  unfold resolve_entry. rewrite Proof.Chain.chain_entry_app_skip by exact H3. cbn [chain_entry].
  change (sec_find n (with_entries s _)) with (sec_find (xnum {| xnum := n; xgen := 0; xdata := KFree 0 |})
    (with_entries s (xadd {| xnum := n; xgen := 0; xdata := KFree 0 |} (s_entries s)))).
  rewrite Proof.Chain.sec_find_with_same. cbn [xgen]. destruct (0 =? g) eqn:Eg; [reflexivity|].
  destruct Hg as [->|Hg]; [discriminate|]. change (resolve_entry n g o = None). apply C24_unknown_object_null.
  intros s' e' Hs He. apply in_split in Hs. destruct Hs as (b & d & ->). eapply (Hg a b d s s' e e'); auto.
  apply Proof.Chain.sec_find_entry. exact H1.
Qed.

(** An object of a generation above 0 that an older section has too is found there after its release. *)
Theorem C58_older_revision_refuted : exists n g c c' e, release_entry n g c = (c', true) /\ resolve_entry n g c' = Some e /\ xdata e = KUsed 17 true.
Proof.
  exists 3, 1, [ {| s_kind := STable; s_entries := [{| xnum := 3; xgen := 1; xdata := KUsed 900 true |}]; s_hybrid := None; s_trailer := [] |};
    {| s_kind := STable; s_entries := [{| xnum := 3; xgen := 1; xdata := KUsed 17 true |}]; s_hybrid := None; s_trailer := [] |} ].
  do 2 eexists. split; [vm_compute; reflexivity|]. split; [vm_compute; reflexivity|reflexivity].
Qed.

(** An object that only the hybrid stream of a table lists is not released. *)
Theorem C58_hybrid_object_refuted : exists n c, snd (release_entry n 0 c) = false /\ resolve_entry n 0 (fst (release_entry n 0 c)) = resolve_entry n 0 c
  /\ resolve_entry n 0 c <> None.
Proof. exists 4, two_sections. vm_compute. repeat split. discriminate. Qed.

Example C58_case : exists c', release_entry 2 0 two_sections = (c', true) /\ resolve_entry 2 0 two_sections <> None.
Proof. eexists. split; [vm_compute; reflexivity|discriminate]. Qed.

(** ** C25 *)

(** Reading the chain ends after at most one step per byte of the file, or the Prev pointers that are followed contain a cycle. *)
Theorem C25_ends_without_cycle_partial : forall d decode file offset, (forall m b, decode m b <> NoFuel) ->
  ~ (exists o, prev_path d decode file offset o /\ prev_cycle d decode file o) ->
  read_chain d decode (S (List.length file)) file offset <> NoFuel.
Proof.
  intros d decode file offset Hd Hc. unfold read_chain. apply rbind_nofuel.
  - intros H. apply Hc. eapply Proof.Chain.read_sections_cycle; [exact Hd| |exact H]. lia.
  - intros c _. apply rbind_nofuel; [apply Proof.Chain.read_hybrids_nofuel; exact Hd|discriminate].
Qed.

(** In particular when every Prev points to an earlier place in the file, as in every file that was written by appending updates. *)
Theorem C25_ends_when_prev_decreases_partial : forall d decode file offset, (forall m b, decode m b <> NoFuel) ->
  (forall o p, prev_of d decode file o p -> (p < o)%Z) ->
  read_chain d decode (S (List.length file)) file offset <> NoFuel.
Proof.
  intros d decode file offset Hd Hp. apply C25_ends_without_cycle_partial; [exact Hd|]. intros (o & _ & Hc).
  assert (G : forall a b, clos_trans Z (prev_of d decode file) a b -> (b < a)%Z) by (intros a b H; induction H; [apply Hp; assumption|lia]).
  apply G in Hc. lia.
Qed.

(** Reading one section always ends. *)
Theorem C25_section_ends : forall d decode file before offset, (forall m b, decode m b <> NoFuel) ->
  read_section d decode file before offset <> NoFuel.
Proof. intros. apply Proof.Chain.read_section_nofuel. assumption. Qed.

(** A file whose Prev points to its own section is read for ever. *)
Definition looping_file : bytes := str "xref" ++ [10] ++ str "0 0" ++ [10] ++ str "trailer" ++ [10] ++ str "<</Prev 0>>".
Theorem C25_cycle_refuted : forall decode fuel, read_chain parser_dictionary decode fuel looping_file 0 = NoFuel.
Proof.
  intros decode fuel. unfold read_chain.
  enough (H : forall c, read_sections parser_dictionary decode fuel looping_file c 0 = NoFuel) by (rewrite H; reflexivity).
  induction fuel as [|f IH]; intros c; [reflexivity|]. cbn [read_sections].
  assert (E : read_section parser_dictionary decode looping_file c 0 =
    Ok (c, {| s_kind := STable; s_entries := []; s_hybrid := None; s_trailer := [(str "Prev", OInt 0)] |})) by (vm_compute; reflexivity).
  rewrite E. cbn [rbind]. change (sm_contains (str "Prev") _) with true. change (find_int (str "Prev") _) with (Ok 0%Z). cbn [rbind]. apply IH.
Qed.

Definition ending_file : bytes := str "xref" ++ [10] ++ str "0 0" ++ [10] ++ str "trailer" ++ [10] ++ str "<</Size 0>>" ++ [10] ++
  str "xref" ++ [10] ++ str "0 0" ++ [10] ++ str "trailer" ++ [10] ++ str "<</Prev 0>>".
Example C25_case : exists c, read_chain parser_dictionary (fun _ b => Ok b) (S (List.length ending_file)) ending_file 29 = Ok c /\ List.length c = 2%nat.
Proof. eexists. split; [vm_compute; reflexivity|reflexivity]. Qed.

Print Assumptions C23_number_unused.
Print Assumptions C23_entry_added.
Print Assumptions C23_allocation_ends.
Print Assumptions C23_history_distinct.
Print Assumptions C23_history_fresh.
Print Assumptions C23_empty_chain_refuted.
Print Assumptions C23_number_zero_refuted.
Print Assumptions C24_first_section_with_generation.
Print Assumptions C24_newest_wins_partial.
Print Assumptions C24_unknown_object_null.
Print Assumptions C24_own_stream_entry.
Print Assumptions C24_deleted_object_refuted.
Print Assumptions C58_others_unchanged.
Print Assumptions C58_released_null_partial.
Print Assumptions C58_older_revision_refuted.
Print Assumptions C58_hybrid_object_refuted.
Print Assumptions C25_ends_without_cycle_partial.
Print Assumptions C25_ends_when_prev_decreases_partial.
Print Assumptions C25_section_ends.
Print Assumptions C25_cycle_refuted.

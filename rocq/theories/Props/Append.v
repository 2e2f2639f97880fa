(** C48: appending a document. *)
From Coq Require Import String List NArith ZArith Bool Lia.
From Verif.Model Require Import Base Arith Token Buffer Equality Duplicates DeepCopy PageTree Append.
From Verif.Spec Require Import PageTree DeepCopy Append.
From Verif.Proof Require Import Tac Equality Duplicates DeepCopy PageTree Append.
From Verif.Props Require Import PageTree DeepCopy.
Import ListNotations.
Local Open Scope N_scope.

(** Every page of the source, in order, gets a copy at the end of the destination's pages: all it leads to is copied with it, under
    unused numbers and with the references between the copies, its Parent is the destination's page tree.  The destination's pages
    come first, as before; its other objects are as before, but for the Count of inner nodes and the Kids of the root.  The named
    destinations of the source's pages lead to the copies.  Missing from the full claim: the source loses the Parent entries, see
    C48_source_changed_refuted; pages are copied one by one, so links between them do not lead to the copies, see C48_links_refuted; what a
    page inherits from its tree is lost, see C48_inherited_refuted; clashing names and destinations given by page numbers, see
    C48_name_clash_refuted and C48_numbered_destination_refuted. *)
Theorem C48_pages_partial : forall alloc src dst snames dnames sroot droot sl dl c ks par,
  allocates alloc -> numbers_unique src -> no_dangling src -> pages_of (view src) sroot sl -> is_pages (view src) sroot -> counts_right (view src) sroot ->
  NoDup sl -> numbers_unique dst -> view dst droot = Some (Tree c (Some ks) par) -> pages_of (view dst) droot dl -> counts_right (view dst) droot ->
  N.of_nat (List.length sl) + 1 < 2 ^ 63 -> N.of_nat (List.length dl) + N.of_nat (List.length sl) < 2 ^ 63 -> N.of_nat (List.length ks) + N.of_nat (List.length sl) < 2 ^ 63 ->
  names_resolve src snames -> NoDup (map fst snames) -> (forall k, In k (map fst snames) -> ~ In k (map fst dnames)) ->
  exists F dst' names nl,
    (forall fuel, (F <= fuel)%nat ->
       append_document alloc fuel snames sroot droot {| a_src := src; a_dst := dst; a_names := dnames |}
       = ({| a_src := drop_parents sl src; a_dst := dst'; a_names := names |}, Ok tt)) /\
    pages_of (view dst') droot (dl ++ nl) /\ counts_right (view dst') droot /\ List.length nl = List.length sl /\
    (forall j p n, nth_error sl j = Some p -> nth_error nl j = Some n -> page_copy (drop_parents (firstn (S j) sl) src) p dst dst' n droot) /\
    (forall i w, holds dst i w -> exists w', holds dst' i w' /\ kept droot i w w' /\
       ((forall t c ks par, i = (t, 0) -> below (view dst) droot t -> view dst t <> Some (Tree c ks par)) -> w' = w)) /\
    (forall k d, In (k, d) names <-> In (k, d) dnames \/ exists j p n, nth_error sl j = Some p /\ nth_error nl j = Some n /\ d = DRef n /\ In (k, DRef p) snames).
Proof.
  intros alloc src dst snames dnames sroot droot sl dl c ks par Ha Hus Hnd Hsp Hsr Hsc Hsd Hud Er Hdp Hdc H1 H2 H3 Hnr Hnn Hnc.
  destruct (append_loop alloc Ha src Hus Hnd sroot sl Hsp Hsr Hsc H1 Hsd snames Hnr Hnn sl [] dst dnames 1 droot c ks par dl eq_refl eq_refl Hud Er Hdp Hdc H2 H3)
    as (F & dst' & names & nl & Hrun & Hpg & Hct & Hlen & Hpc & Hfr & _ & Hnm).
  { intros k Hk Hk2. exfalso. exact (Hnc k Hk Hk2). }
  exists F, dst', names, nl. split; [|split; [exact Hpg|split; [exact Hct|split; [exact Hlen|split; [|split; [|exact Hnm]]]]]].
  - intros fuel Hf. unfold append_document. cbn [a_src]. rewrite (C39_count _ _ _ Hsp Hsr Hsc) by (change (2 ^ 63) with 9223372036854775808 in *; lia).
    rewrite Nnat.Nat2N.id. rewrite drop_nil in Hrun. apply Hrun. exact Hf.
  - exact Hpc.
  - intros i w Hw. destruct (Hfr i w Hw) as (w' & Hw' & Hk & Hs). exists w'. split; [exact Hw'|]. split; [exact Hk|]. intros H. apply Hs.
    intros t -> [Hb (c0 & ks0 & par0 & E)]. exact (H t c0 ks0 par0 eq_refl Hb E).
Qed.

(** Two pages sharing a font, appended to a document with one page; the second page has a name. *)
Definition pages_node (count : Z) (kids : list N) (more : entries) : value :=
  VDict ((str "Type", VName (str "Pages")) :: (str "Count", VInt (QSigned count)) :: (str "Kids", VArr (map (fun n => VRef n 0) kids)) :: more).
Definition page_node_of (parent : N) (more : entries) : value :=
  VDict ((str "Type", VName (str "Page")) :: (str "Parent", VRef parent 0) :: more).
Definition two_pages : file_objects :=
  [(1, 0, pages_node 2 [2; 3] []); (2, 0, page_node_of 1 [(str "Font", VRef 4 0)]); (3, 0, page_node_of 1 [(str "Font", VRef 4 0)]);
   (4, 0, VName (str "Courier"))].
Definition one_page : file_objects := [(1, 0, pages_node 1 [2] []); (2, 0, page_node_of 1 [])].
Definition second_named : list (bytes * dest) := [(str "second", DRef 3)].
Lemma next_allocates : allocates next_number.
Proof. intros f. eexists. split; [reflexivity|]. apply next_fresh. reflexivity. Qed.

Definition refs_found (f : file_objects) : bool :=
  forallb (fun e => forallb (fun j => existsb (fun e' => same_id (fst e') j) f) (value_refs (snd e))) f.
Lemma refs_found_ok : forall f, refs_found f = true -> no_dangling f.
Proof.
  intros f H i v j Hv Hj. apply value_refs_spec in Hj. unfold refs_found in H. rewrite forallb_forall in H. specialize (H _ Hv). cbn [snd] in H.
  rewrite forallb_forall in H. specialize (H _ Hj). apply existsb_exists in H. destruct H as ([k w] & Hin & E). apply same_id_eq in E. cbn [fst] in E. subst k. exists w. exact Hin.
Qed.

Example C48_case :
  allocates next_number /\ numbers_unique two_pages /\ no_dangling two_pages /\ pages_of (view two_pages) 1 [2; 3] /\ is_pages (view two_pages) 1 /\
  counts_right (view two_pages) 1 /\ NoDup [2; 3] /\ numbers_unique one_page /\ view one_page 1 = Some (Tree (Some 1%Z) (Some [2]) None) /\
  pages_of (view one_page) 1 [2] /\ counts_right (view one_page) 1 /\ names_resolve two_pages second_named /\
  append_document next_number 5 second_named 1 1 {| a_src := two_pages; a_dst := one_page; a_names := [(str "first", DRef 2)] |} =
    ({| a_src := drop_parents [2; 3] two_pages;
        a_dst := [(6, 0, VName (str "Courier"));
                  (5, 0, VDict [(str "Parent", VRef 1 0); (str "Type", VName (str "Page")); (str "Font", VRef 6 0)]);
                  (4, 0, VName (str "Courier"));
                  (3, 0, VDict [(str "Parent", VRef 1 0); (str "Type", VName (str "Page")); (str "Font", VRef 4 0)]);
                  (1, 0, VDict [(str "Kids", VArr [VRef 2 0; VRef 3 0; VRef 5 0]); (str "Count", VInt (QSigned 3)); (str "Type", VName (str "Pages"))]);
                  (2, 0, page_node_of 1 [])];
        a_names := [(str "first", DRef 2); (str "second", DRef 5)] |}, Ok tt).
Proof.
  destruct (check_ok 5 (view two_pages) 1 [2; 3] eq_refl) as [S1 S2]. destruct (check_ok 5 (view one_page) 1 [2] eq_refl) as [D1 D2].
  split; [exact next_allocates|]. split; [unfold numbers_unique; cbn; repeat constructor; cbn; intuition discriminate|].
  split; [apply refs_found_ok; reflexivity|]. split; [exact S1|]. split; [do 3 eexists; reflexivity|]. split; [exact S2|].
  split; [repeat constructor; cbn; intuition discriminate|]. split; [unfold numbers_unique; cbn; repeat constructor; cbn; intuition discriminate|].
  split; [reflexivity|]. split; [exact D1|]. split; [exact D2|]. split; [|vm_compute; reflexivity].
  intros k d [[= <- <-]|[]]. do 2 eexists. split; [reflexivity|]. right. right. left. reflexivity.
Qed.

(** Finding: the source document is changed: whatever is appended, its pages have no Parent afterwards. *)
Theorem C48_source_changed_refuted : forall alloc src dst snames dnames sroot droot sl dl c ks par p l,
  allocates alloc -> numbers_unique src -> no_dangling src -> pages_of (view src) sroot sl -> is_pages (view src) sroot -> counts_right (view src) sroot ->
  NoDup sl -> numbers_unique dst -> view dst droot = Some (Tree c (Some ks) par) -> pages_of (view dst) droot dl -> counts_right (view dst) droot ->
  N.of_nat (List.length sl) + 1 < 2 ^ 63 -> N.of_nat (List.length dl) + N.of_nat (List.length sl) < 2 ^ 63 -> N.of_nat (List.length ks) + N.of_nat (List.length sl) < 2 ^ 63 ->
  names_resolve src snames -> NoDup (map fst snames) -> (forall k, In k (map fst snames) -> ~ In k (map fst dnames)) ->
  In p sl -> holds src (p, 0) (VDict l) ->
  exists F st' l', (forall fuel, (F <= fuel)%nat -> append_document alloc fuel snames sroot droot {| a_src := src; a_dst := dst; a_names := dnames |} = (st', Ok tt)) /\
    holds (a_src st') (p, 0) (VDict l') /\ entry_get (str "Parent") l' = None /\ (forall k, k <> str "Parent" -> entry_get k l' = entry_get k l).
Proof.
  intros alloc src dst snames dnames sroot droot sl dl c ks par p l Ha Hus Hnd Hsp Hsr Hsc Hsd Hud Er Hdp Hdc H1 H2 H3 Hnr Hnn Hnc Hin Hl.
  destruct (C48_pages_partial alloc src dst snames dnames sroot droot sl dl c ks par Ha Hus Hnd Hsp Hsr Hsc Hsd Hud Er Hdp Hdc H1 H2 H3 Hnr Hnn Hnc)
    as (F & dst' & names & nl & Hrun & _).
  exists F. do 2 eexists. split; [exact Hrun|]. cbn [a_src]. split; [|split].
  - rewrite drop_map. apply holds_map. exists (VDict l). split; [exact Hl|]. unfold parentless. cbn [fst snd].
    assert (X : existsb (N.eqb p) sl = true) by (apply existsb_exists; exists p; split; [exact Hin|apply N.eqb_refl]). rewrite X. reflexivity.
  - apply get_del_same.
  - intros k Hk. apply get_del_other. exact Hk.
Qed.

(** An attribute of a page: its own, or the one of the closest node above that has it *)
Inductive attribute (f : file_objects) (k : bytes) : N -> value -> Prop :=
| at_own : forall n l v, holds f (n, 0) (VDict l) -> entry_get k l = Some v -> attribute f k n v
| at_up : forall n l p v, holds f (n, 0) (VDict l) -> entry_get k l = None -> entry_get (str "Parent") l = Some (VRef p 0) -> attribute f k p v -> attribute f k n v.

(** Finding: what a page inherits from its page tree is not copied. *)
Definition inheriting : file_objects := [(1, 0, pages_node 1 [2] [(str "Rotate", VInt (QSigned 90))]); (2, 0, page_node_of 1 [])].
Theorem C48_inherited_refuted : exists src dst sroot droot p st' n,
  numbers_unique src /\ no_dangling src /\ pages_of (view src) sroot [p] /\ counts_right (view src) sroot /\
  (forall fuel, (5 <= fuel)%nat -> append_document next_number fuel [] sroot droot {| a_src := src; a_dst := dst; a_names := [] |} = (st', Ok tt)) /\
  attribute src (str "Rotate") p (VInt (QSigned 90)) /\ pages_of (view (a_dst st')) droot [2; n] /\ forall v, ~ attribute (a_dst st') (str "Rotate") n v.
Proof.
  exists inheriting, one_page, 1, 1, 2. eexists. exists 3. destruct (check_ok 5 (view inheriting) 1 [2] eq_refl) as [S1 S2].
  split; [unfold numbers_unique; cbn; repeat constructor; cbn; intuition discriminate|]. split; [apply refs_found_ok; reflexivity|].
  split; [exact S1|]. split; [exact S2|]. split.
  { intros fuel Hf. do 5 (destruct fuel as [|fuel]; [lia|]). vm_compute. reflexivity. }
  split.
  { eapply at_up; [right; left; reflexivity|reflexivity|reflexivity|]. eapply at_own; [left; reflexivity|reflexivity]. }
  split.
  { eapply (proj1 (check_ok 5 _ 1 [2; 3] _)). Unshelve. vm_compute. reflexivity. }
  intros v Hv. cbn [a_dst] in Hv.
  assert (X : forall n, attribute [(3, 0, VDict [(str "Parent", VRef 1 0); (str "Type", VName (str "Page"))]);
     (1, 0, VDict [(str "Kids", VArr [VRef 2 0; VRef 3 0]); (str "Count", VInt (QSigned 2)); (str "Type", VName (str "Pages"))]);
     (2, 0, VDict [(str "Type", VName (str "Page")); (str "Parent", VRef 1 0)])] (str "Rotate") n v -> False).
  { clear. intros n H. induction H as [n l v Hin E|n l p v Hin E1 E2 _ IH]; [|exact IH].
    destruct Hin as [E0|[E0|[E0|[]]]]; injection E0 as _ <-; discriminate E. }
  exact (X 3 Hv).
Qed.

(** Finding: pages are copied one by one, each with all it leads to.  A page with a link to another page of its document brings its own
    copy of that page and, through its Parent, of the whole tree; the link does not lead to the page that is appended next. *)
Definition linked : file_objects := [(1, 0, pages_node 2 [2; 3] []); (2, 0, page_node_of 1 [(str "Link", VRef 3 0)]); (3, 0, page_node_of 1 [])].
Theorem C48_links_refuted : exists src dst sroot droot dst' st' a b x l,
  numbers_unique src /\ no_dangling src /\ pages_of (view src) sroot [2; 3] /\ counts_right (view src) sroot /\
  (exists l0, holds src (2, 0) (VDict l0) /\ entry_get (str "Link") l0 = Some (VRef 3 0)) /\
  (forall fuel, (5 <= fuel)%nat -> append_document next_number fuel [] sroot droot {| a_src := src; a_dst := dst; a_names := [] |} = (st', Ok tt)) /\
  a_dst st' = dst' /\ pages_of (view dst') droot [2; a; b] /\ holds dst' (a, 0) (VDict l) /\ entry_get (str "Link") l = Some (VRef x 0) /\
  ~ In x [2; a; b] /\ List.length dst' = 6%nat.
Proof.
  exists linked, one_page, 1, 1. do 2 eexists. exists 3, 6, 4. eexists. destruct (check_ok 5 (view linked) 1 [2; 3] eq_refl) as [S1 S2].
  split; [unfold numbers_unique; cbn; repeat constructor; cbn; intuition discriminate|]. split; [apply refs_found_ok; reflexivity|].
  split; [exact S1|]. split; [exact S2|]. split; [eexists; split; [right; left; reflexivity|reflexivity]|].
  split; [intros fuel Hf; do 5 (destruct fuel as [|fuel]; [lia|]); vm_compute; reflexivity|]. split; [cbn [a_dst]; reflexivity|].
  split; [eapply (proj1 (check_ok 5 _ 1 [2; 3; 6] _))|].
  split; [right; right; right; left; reflexivity|].
  split; [reflexivity|]. split; [cbn; intuition discriminate|reflexivity].
  Unshelve. vm_compute. reflexivity.
Qed.

(** Finding: when a name of the source is taken, the append fails half way: the page is in the destination already. *)
Theorem C48_name_clash_refuted : exists st' n, forall fuel, (5 <= fuel)%nat ->
  append_document next_number fuel [(str "name", DRef 2)] 1 1 {| a_src := two_pages; a_dst := one_page; a_names := [(str "name", DRef 2)] |} = (st', Throw ENotSupported) /\
  pages_of (view (a_dst st')) 1 [2; n] /\ a_src st' = drop_parents [2] two_pages.
Proof.
  eexists. exists 3. intros fuel Hf. split; [do 5 (destruct fuel as [|fuel]; [lia|]); vm_compute; reflexivity|].
  split; [eapply (proj1 (check_ok 5 _ 1 [2; 3] _))|reflexivity]. Unshelve. vm_compute. reflexivity.
Qed.

(** Finding: a document with a named destination that is given by a page number cannot be appended at all. *)
Theorem C48_numbered_destination_refuted : forall alloc fuel snames sroot droot st k z n,
  In (k, DIndex z) snames -> page_count (view (a_src st)) sroot = Ok n -> 1 <= n ->
  snd (append_document alloc fuel snames sroot droot st) <> Ok tt.
Proof.
  intros alloc fuel snames sroot droot st k z n Hin Hn H1. unfold append_document. rewrite Hn.
  destruct (N.to_nat n) as [|m] eqn:En; [lia|]. cbn [append_from].
  destruct (get_page fuel (view (a_src st)) sroot 1) as [p|e| |] eqn:Ep; try discriminate.
  apply get_page_page in Ep. apply unparent_page in Ep. unfold append_page_copy.
  destruct (deep_copy alloc (unparent p (a_src st)) (a_dst st) [HIndirect (p, 0)]) as [[r dst1]|e| |]; try discriminate.
  destruct r as [|new [|? ?]]; try discriminate. destruct (lookup_id dst1 new) as [v|]; [|discriminate]. destruct (node_of v); try discriminate.
  destruct (append_page fuel (view dst1) droot (fst new)) as [h [[]|e| |]]; try discriminate.
  assert (X := numbered_fails fuel _ p (fst new) k z snames (a_names st) Hin Ep).
  destruct (merge_names fuel (unparent p (a_src st)) p (fst new) snames (a_names st)) as [names [[]|e| |]]; cbn [snd] in *; try discriminate. exfalso. exact (X eq_refl).
Qed.

(** The example's document with the second page named by its number. *)
Example C48_case_numbered : In (str "second", DIndex 2) [(str "second", DIndex 2)] /\ page_count (view two_pages) 1 = Ok 2 /\
  snd (append_document next_number 5 [(str "second", DIndex 2)] 1 1 {| a_src := two_pages; a_dst := one_page; a_names := [] |}) = Throw EGeneral.
Proof. split; [left; reflexivity|]. split; vm_compute; reflexivity. Qed.

Print Assumptions C48_pages_partial.
Print Assumptions C48_source_changed_refuted.
Print Assumptions C48_inherited_refuted.
Print Assumptions C48_links_refuted.
Print Assumptions C48_name_clash_refuted.
Print Assumptions C48_numbered_destination_refuted.

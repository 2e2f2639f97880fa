(** C64: kinds of objects, named values, links and outlines are those of the standard.  C59: byte ranges of a signature as read. *)
From Coq Require Import List NArith ZArith Bool Lia String.
From Coq Require Import List.
From Verif.Model Require Import Base SMap Object Containers Entries Kinds.
From Verif.Spec Require Import Kinds.
From Verif.Proof Require Import Tac SMap Containers Entries Kinds.
Import ListNotations.
Local Open Scope N_scope.

(** A dictionary is taken for an annotation of some kind exactly when its type, if given, is Annot and its subtype is the name of that
    kind in the standard, except for three kinds, which have to have the names of the C++ classes. *)
Theorem C64_annotation_partial : forall heap d k, annotation_kind heap d = Ok k <->
  of_type heap d (str "Annot") /\ exists n, entry_is heap d (str "Subtype") (OName n) /\
  ((iso_annotation n k /\ ~ In n renamed) \/
   In (n, k) [(str "RubberStamp", AnRubberStamp); (str "TrapNetwork", AnTrapNetwork); (str "TripleD", AnTripleD)]).
Proof.
  intros heap d k. unfold annotation_kind. rewrite kind_ok. split; intros [H1 (n & H2 & H3)]; (split; [exact H1|]); exists n; (split; [exact H2|]).
  - assert (R : forall a, existsb (beq a) renamed = false -> ~ In a renamed).
    { intros a Ha Hin. assert (existsb (beq a) renamed = true) by (apply existsb_exists; exists a; split; [exact Hin|apply beq_same]). congruence. }
    table H3; try (left; split; [constructor|apply R; vm_compute; reflexivity]); right; vm_compute; auto.
  - destruct H3 as [[H3 Hr]|H3].
    + destruct H3; try (vm_compute; reflexivity); exfalso; apply Hr; vm_compute; auto.
    + cbn [In] in H3. repeat (destruct H3 as [H3|H3]; [apply pair_equal_spec in H3; destruct H3 as [<- <-]; vm_compute; reflexivity|]). contradiction.
Qed.

(** Stamps, trap networks and 3D annotations as the standard names them are always refused. *)
Theorem C64_annotation_refuted : forall heap d n k, of_type heap d (str "Annot") -> entry_is heap d (str "Subtype") (OName n) ->
  iso_annotation n k -> In n renamed -> annotation_kind heap d = Throw EGeneral.
Proof.
  intros heap d n k Ht Hs Hi Hr. unfold annotation_kind. apply type_is_ok in Ht. apply required_ok in Hs. rewrite Ht. cbn [rbind]. rewrite Hs. cbn [rbind].
  destruct Hr as [<-|[<-|[<-|[]]]]; vm_compute; reflexivity.
Qed.

Theorem C64_font : forall heap d k, font_kind heap d = Ok k <->
  of_type heap d (str "Font") /\ exists n, entry_is heap d (str "Subtype") (OName n) /\ iso_font n k.
Proof.
  intros heap d k. unfold font_kind. rewrite kind_ok. split; intros [H1 (n & H2 & H3)]; (split; [exact H1|]); exists n; (split; [exact H2|]).
  - table H3; constructor.
  - destruct H3; vm_compute; reflexivity.
Qed.

(** Fields with a type of their own. *)
Theorem C64_field_partial : forall heap d k, k <> FiNonTerminal ->
  (field_kind heap d = Ok k <-> exists n, entry_is heap d (str "FT") (OName n) /\ iso_field n k).
Proof.
  intros heap d k Hk. unfold field_kind. split.
  - intros H. destruct (sm_find (str "FT") d) as [v|] eqn:E; [|congruence]. destruct (target heap v) eqn:Ev; try discriminate.
    match type of H with match compare_names ?t ?n with _ => _ end = _ => destruct (compare_names t n) as [x|] eqn:Ec end; [|discriminate].
    assert (x = k) by congruence. subst x. exists n. split; [exists v; split; [exact E|rewrite <- target_stands; exact Ev]|]. table Ec; constructor.
  - intros (n & He & Hi). apply entry_found in He. destruct He as (v & -> & ->). destruct Hi; vm_compute; reflexivity.
Qed.
(** A field that inherits its type from its parent is reported as one without type. *)
Theorem C64_field_inherited_refuted : forall heap d p n, sm_find (str "FT") d = None -> entry_is heap d (str "Parent") (ODict p) ->
  field_type heap p n -> field_type heap d n /\ field_kind heap d = Ok FiNonTerminal.
Proof. intros heap d p n Hn Hp Hf. split; [eapply ft_parent; eauto|]. unfold field_kind. rewrite Hn. reflexivity. Qed.

(** An explicit destination, alone or in a dictionary, is of its kind and leads to its page. *)
Theorem C64_destination : forall heap v k page, leads_to heap v k page -> destination_of heap v = Ok (k, page).
Proof.
  intros heap v k page H.
  assert (A : forall o, explicit heap o k page -> exists l, o = OArr l /\ destination_array heap l = Ok (k, page)).
  { intros o (kind & n & rest & -> & Hs & Hi & Hp). eexists. split; [reflexivity|]. cbn [destination_array].
    assert (Hb : negb (is_number heap page) && negb (is_ref page) = false).
    { destruct Hp as [(i & g & ->)|(i & ->)]; [apply andb_false_r|reflexivity]. }
    rewrite Hb, target_stands, Hs. destruct Hi; vm_compute; reflexivity. }
  unfold destination_of. rewrite target_stands. destruct H as [H|(d & o & Hd & (w & Hf & Hw) & H)].
  - destruct (A _ H) as (l & -> & Hl). exact Hl.
  - rewrite Hd, Hf, target_stands, Hw. destruct (A _ H) as (l & -> & Hl). exact Hl.
Qed.
(** Nothing else is taken for a destination, except that a page may be given by a real number. *)
Theorem C64_destination_only : forall heap v k page, destination_of heap v = Ok (k, page) ->
  exists o kind n rest, (stands_for heap v = o \/ exists d, stands_for heap v = ODict d /\ entry_is heap d (str "D") o) /\
    o = OArr (page :: kind :: rest) /\ stands_for heap kind = OName n /\ iso_destination n k.
Proof.
  intros heap v k page H. unfold destination_of in H. rewrite target_stands in H.
  assert (A : forall l, destination_array heap l = Ok (k, page) -> exists kind n rest, l = page :: kind :: rest /\ stands_for heap kind = OName n /\ iso_destination n k).
  { intros l Hl. destruct l as [|a [|b r]]; try discriminate. destruct (explicit_array heap _ _ _ _ _ Hl) as [<- (n & Hn & Hi)]. exists b, n, r. auto. }
  destruct (stands_for heap v) as [| | | | | | | |l|d|] eqn:Es; try discriminate.
  - destruct (A l H) as (kind & n & rest & -> & Hk). exists (OArr (page :: kind :: rest)), kind, n, rest. split; [left; reflexivity|]. auto.
  - destruct (sm_find (str "D") d) as [w|] eqn:Ef; [|discriminate]. rewrite target_stands in H.
    destruct (stands_for heap w) as [| | | | | | | |l|e|] eqn:Ew; try discriminate. destruct (A l H) as (kind & n & rest & -> & Hk).
    exists (OArr (page :: kind :: rest)), kind, n, rest. split; [|auto]. right. exists d. split; [reflexivity|]. exists w. auto.
Qed.

(** A destination stored under a name, new or not, is found under that name; the others stay. *)
Theorem C64_named_destination : forall heap m n v, sm_sorted m -> sm_keys_ok m -> all_bytes n -> exists m',
  named_insert m n v = Ok m' /\ (forall k page, leads_to heap v k page -> named_find heap m' n = Ok (k, page)) /\
  forall j, all_bytes j -> j <> n -> named_find heap m' j = named_find heap m j.
Proof.
  intros heap m n v Hs Hk Hb. destruct (put_entry_spec n v m (conj Hs Hk) Hb) as (m' & E & _ & F). exists m'. split; [exact E|]. unfold named_find. split.
  - intros k page H. rewrite (F n Hb), beq_same. apply C64_destination, H.
  - intros j Hj Hne. rewrite (F j Hj). destruct (beq j n) eqn:B; [|reflexivity]. apply beq_true in B. contradiction.
Qed.

(** A link leads where its destination does: given directly, by a name of the catalog's Dests, or by a string of the name tree. *)
Theorem C64_link : forall heap catalog tree_find d,
  (sm_find (str "Dest") d = None -> link_destination heap catalog tree_find d = Ok None) /\
  (forall v k page, sm_find (str "Dest") d = Some v -> leads_to heap v k page -> link_destination heap catalog tree_find d = Ok (Some (k, page))) /\
  (forall n dests w k page, entry_is heap d (str "Dest") (OName n) -> entry_is heap catalog (str "Dests") (ODict dests) ->
     sm_find n dests = Some w -> leads_to heap w k page -> link_destination heap catalog tree_find d = Ok (Some (k, page))) /\
  (forall s names tree w k page, (entry_is heap d (str "Dest") (OLit s) \/ entry_is heap d (str "Dest") (OHex s)) ->
     entry_is heap catalog (str "Names") (ODict names) -> entry_is heap names (str "Dests") (ODict tree) ->
     tree_find tree s = Ok (Some w) -> leads_to heap w k page -> link_destination heap catalog tree_find d = Ok (Some (k, page))).
Proof.
  intros heap catalog tree_find d. unfold link_destination. split; [intros ->; reflexivity|]. split; [|split].
  - intros v k page -> H. pose proof (C64_destination heap v k page H) as Hd. rewrite target_stands.
    destruct H as [(kind & n & rest & Ho & _)|(e & o & He & _)].
    + rewrite Ho, Hd. reflexivity.
    + rewrite He, Hd. reflexivity.
  - intros n dests w k page He Hc Hf H. apply entry_found in He. destruct He as (v & -> & ->). unfold dict_entry.
    apply entry_found in Hc. destruct Hc as (c & Hc & Ht). unfold sm_contains. rewrite Hc. cbn [negb]. rewrite Ht. cbn [rbind]. rewrite Hf. cbn [negb].
    unfold named_find. rewrite Hf, (C64_destination heap w k page H). reflexivity.
  - intros s names tree w k page He Hc Hn Hf H.
    assert (Hv : exists v, sm_find (str "Dest") d = Some v /\ (target heap v = OLit s \/ target heap v = OHex s)).
    { destruct He as [He|He]; apply entry_found in He; destruct He as (v & H1 & H2); exists v; auto. }
    destruct Hv as (v & -> & Hv). apply entry_found in Hc. destruct Hc as (c & Hc & Htc). apply entry_found in Hn. destruct Hn as (t & Hn & Htn).
    unfold dict_entry, sm_contains. destruct Hv as [-> | ->]; rewrite Hc; cbn [negb]; rewrite Htc; cbn [rbind]; rewrite Hn; cbn [negb]; rewrite Htn; cbn [rbind];
      rewrite Hf; cbn [rbind]; rewrite (C64_destination heap w k page H); reflexivity.
Qed.

(** A link whose name or string the document does not define has no destination, and one of another kind is an error. *)
Theorem C64_link_unknown : forall heap catalog tree_find d,
  (forall n, entry_is heap d (str "Dest") (OName n) ->
     sm_find (str "Dests") catalog = None \/ (exists dests, entry_is heap catalog (str "Dests") (ODict dests) /\ sm_find n dests = None) ->
     link_destination heap catalog tree_find d = Ok None) /\
  (forall s, entry_is heap d (str "Dest") (OLit s) \/ entry_is heap d (str "Dest") (OHex s) ->
     sm_find (str "Names") catalog = None \/
     (exists names, entry_is heap catalog (str "Names") (ODict names) /\
        (sm_find (str "Dests") names = None \/ exists tree, entry_is heap names (str "Dests") (ODict tree) /\ tree_find tree s = Ok None)) ->
     link_destination heap catalog tree_find d = Ok None) /\
  (forall v, sm_find (str "Dest") d = Some v ->
     match stands_for heap v with OArr _ | ODict _ | OLit _ | OHex _ | OName _ => False | _ => True end ->
     link_destination heap catalog tree_find d = Throw EGeneral).
Proof.
  intros heap catalog tree_find d. unfold link_destination. split; [|split].
  - intros n He Hc. apply entry_found in He. destruct He as (v & -> & ->). unfold dict_entry, sm_contains. destruct Hc as [->|(dests & Hc & Hn)]; [reflexivity|].
    apply entry_found in Hc. destruct Hc as (c & -> & Ht). cbn [negb]. rewrite Ht. cbn [rbind]. rewrite Hn. reflexivity.
  - intros s He Hc.
    assert (Hv : exists v, sm_find (str "Dest") d = Some v /\ (target heap v = OLit s \/ target heap v = OHex s)).
    { destruct He as [He|He]; apply entry_found in He; destruct He as (v & H1 & H2); exists v; auto. }
    destruct Hv as (v & -> & Hv). unfold dict_entry, sm_contains. destruct Hc as [E|(names & Hc & Hn)]; [destruct Hv as [-> | ->]; rewrite E; reflexivity|].
    apply entry_found in Hc. destruct Hc as (c & Hc & Htc). destruct Hn as [Hn|(tree & Hn & Hf)].
    + destruct Hv as [-> | ->]; rewrite Hc; cbn [negb]; rewrite Htc; cbn [rbind]; rewrite Hn; reflexivity.
    + apply entry_found in Hn. destruct Hn as (t & Hn & Htn). destruct Hv as [-> | ->]; rewrite Hc; cbn [negb]; rewrite Htc; cbn [rbind]; rewrite Hn; cbn [negb]; rewrite Htn; cbn [rbind]; rewrite Hf; reflexivity.
  - intros v -> H. rewrite target_stands. destruct (stands_for heap v); try contradiction; reflexivity.
Qed.

(** The named values of the catalog and the viewer preferences are the ones of the standard; every other name is an error. *)
Theorem C64_values : forall heap d i,
  (page_layout heap d = Ok (Some i) <-> value_is heap iso_page_layout (str "PageLayout") d i) /\
  (page_mode heap d = Ok (Some i) <-> value_is heap iso_page_mode (str "PageMode") d i) /\
  (non_full_screen heap d = Ok (Some i) <-> value_is heap iso_non_full_screen (str "NonFullScreenPageMode") d i) /\
  (direction heap d = Ok (Some i) <-> value_is heap iso_direction (str "Direction") d i) /\
  (print_scaling heap d = Ok (Some i) <-> value_is heap iso_print_scaling (str "PrintScaling") d i) /\
  (duplex heap d = Ok (Some i) <-> value_is heap iso_duplex (str "Duplex") d i).
Proof.
  intros heap d i. unfold page_layout, page_mode, non_full_screen, direction, print_scaling, duplex.
  assert (N1 : forall (l : list bytes) n j, 0 < j -> nth_error l (N.to_nat (j - 1)) = Some n -> (j <= N.of_nat (List.length l))).
  { intros l n j Hj H. assert (N.to_nat (j - 1) < List.length l)%nat by (apply nth_error_Some; congruence). lia. }
  repeat match goal with |- _ /\ _ => split end; apply value_ok; intros n j; split; intros H;
    try (table H; (split; [lia|vm_compute; reflexivity]));
    destruct H as [Hj H]; pose proof (N1 _ _ _ Hj H) as Hlen; cbn [List.length iso_page_layout iso_page_mode iso_non_full_screen iso_direction iso_print_scaling iso_duplex map] in Hlen.
  - assert (Hc : j = 1 \/ j = 2 \/ j = 3 \/ j = 4 \/ j = 5 \/ j = 6) by lia. repeat destruct Hc as [->|Hc]; try subst j; vm_compute in H; injection H as <-; vm_compute; reflexivity.
  - assert (Hc : j = 1 \/ j = 2 \/ j = 3 \/ j = 4 \/ j = 5 \/ j = 6) by lia. repeat destruct Hc as [->|Hc]; try subst j; vm_compute in H; injection H as <-; vm_compute; reflexivity.
  - assert (Hc : j = 1 \/ j = 2 \/ j = 3 \/ j = 4) by lia. repeat destruct Hc as [->|Hc]; try subst j; vm_compute in H; injection H as <-; vm_compute; reflexivity.
  - assert (Hc : j = 1 \/ j = 2) by lia. repeat destruct Hc as [->|Hc]; try subst j; vm_compute in H; injection H as <-; vm_compute; reflexivity.
  - assert (Hc : j = 1 \/ j = 2) by lia. repeat destruct Hc as [->|Hc]; try subst j; vm_compute in H; injection H as <-; vm_compute; reflexivity.
  - assert (Hc : j = 1 \/ j = 2 \/ j = 3) by lia. repeat destruct Hc as [->|Hc]; try subst j; vm_compute in H; injection H as <-; vm_compute; reflexivity.
Qed.
(** ... and no value is given only when there is no entry, so that every other value is an error. *)
Theorem C64_values_missing : forall heap d,
  (page_layout heap d = Ok None <-> sm_find (str "PageLayout") d = None) /\ (page_mode heap d = Ok None <-> sm_find (str "PageMode") d = None) /\
  (non_full_screen heap d = Ok None <-> sm_find (str "NonFullScreenPageMode") d = None) /\ (direction heap d = Ok None <-> sm_find (str "Direction") d = None) /\
  (print_scaling heap d = Ok None <-> sm_find (str "PrintScaling") d = None) /\ (duplex heap d = Ok None <-> sm_find (str "Duplex") d = None).
Proof.
  intros heap d.
  assert (H : forall table k, named_value heap table k d = Ok None <-> sm_find k d = None).
  { intros table k. unfold named_value. destruct (sm_find k d) as [v|]; [|tauto]. split; [|discriminate]. destruct (target heap v); try discriminate. destruct (compare_names table n); discriminate. }
  unfold page_layout, page_mode, non_full_screen, direction, print_scaling, duplex. repeat split; apply H.
Qed.
Example C64_values_missing_case : forall heap, page_layout heap [(str "PageLayout", OName (str "Wide"))] = Throw EGeneral.
Proof. reflexivity. Qed.

(** Going through one level of an outline from its first item gives all its titles in order. *)
Theorem C64_outline_level : forall heap item ts, level heap item ts -> titles heap (S (List.length ts)) item = Ok ts.
Proof.
  intros heap item ts H.
  assert (T : forall d t, (entry_is heap d (str "Title") (OLit t) \/ entry_is heap d (str "Title") (OHex t)) -> outline_title heap d = Ok t).
  { intros d t [Ht|Ht]; apply entry_found in Ht; destruct Ht as (v & Hv & E); unfold outline_title; rewrite Hv, E; reflexivity. }
  induction H as [|d t Ht Hn|d t e r Ht Hn Hl IH].
  - reflexivity.
  - cbn [titles List.length]. rewrite (T d t Ht). cbn [rbind]. unfold outline_link. rewrite Hn. reflexivity.
  - cbn [titles List.length] in *. rewrite (T d t Ht). cbn [rbind]. apply entry_found in Hn. destruct Hn as (v & Hv & E).
    unfold outline_link at 1. rewrite Hv, E. cbn [rbind]. rewrite IH. reflexivity.
Qed.
(** The parent of every item is reported as the outline itself, also when it is an item with a title of its own. *)
Theorem C64_outline_parent_refuted : forall heap d p t, entry_is heap d (str "Parent") (ODict p) -> outline_title heap p = Ok t ->
  outline_parent heap d = Ok (OtOutline, p).
Proof. intros heap d p t H _. apply entry_found in H. destruct H as (v & Hv & E). unfold outline_parent, dict_entry. rewrite Hv, E. reflexivity. Qed.
(** Bit 1 is italic, bit 2 is bold. *)
Theorem C64_outline_flags : forall v, outline_italic v = Z.testbit v 0 /\ outline_bold v = Z.testbit v 1.
Proof.
  intros v. unfold outline_italic, outline_bold. split.
  - change 1%Z with (Z.ones 1). rewrite Z.land_ones by lia. rewrite Z.bit0_odd, Zmod_odd. destruct (Z.odd v); reflexivity.
  - assert (B : forall i, (0 <= i)%Z -> Z.testbit (Z.land v 2) i = (i =? 1)%Z && Z.testbit v 1).
    { intros i Hi. rewrite Z.land_spec. change 2%Z with (2 ^ 1)%Z. rewrite Z.pow2_bits_eqb by lia. rewrite Z.eqb_sym.
      destruct (i =? 1)%Z eqn:E; [|apply andb_false_r]. assert (i = 1%Z) by lia. subst i. apply andb_true_r. }
    destruct (Z.land v 2 =? 0)%Z eqn:E.
    + assert (E2 : Z.land v 2 = 0%Z) by lia. specialize (B 1%Z ltac:(lia)). rewrite E2, Z.bits_0, Z.eqb_refl in B. cbn [andb] in B. rewrite <- B. reflexivity.
    + destruct (Z.testbit v 1) eqn:T; [reflexivity|]. exfalso. assert (E2 : Z.land v 2 = 0%Z); [|lia].
      apply Z.bits_inj'. intros i Hi. rewrite (B i Hi), andb_false_r, Z.bits_0. reflexivity.
Qed.

(** The byte ranges of a signature: the number of ranges and the first one are right. *)
Theorem C59_byte_range_first_partial : forall l, byte_ranges l = Ok l -> byte_range_count l = List.length (in_pairs l) /\
  forall p, nth_error (in_pairs l) 0 = Some p -> byte_range_at l 0 = Ok p.
Proof.
  intros l H. split.
  - assert (G : forall n m, (List.length m <= n)%nat -> Nat.div2 (List.length m) = List.length (in_pairs m)).
    { induction n as [|n IH]; intros m Hm; destruct m as [|a [|b r]]; try reflexivity; cbn [List.length] in Hm; [lia|].
      cbn [List.length in_pairs Nat.div2]. f_equal. apply IH. lia. }
    exact (G _ l (le_n _)).
  - intros p Hp. destruct l as [|a [|b r]]; try discriminate. cbn in Hp. injection Hp as <-. reflexivity.
Qed.
(** A byte range with an offset that has no length is refused, and no other. *)
Theorem C59_byte_range_whole : forall l,
  (byte_ranges l = Ok l <-> exists n, List.length l = (2 * n)%nat) /\ (byte_ranges l = Throw EGeneral <-> exists n, List.length l = (2 * n + 1)%nat).
Proof.
  intros l. unfold byte_ranges. destruct (Nat.even (List.length l)) eqn:E.
  - apply Nat.even_spec in E. destruct E as (n & E). split; split; intros H; try discriminate; [exists n; exact E|reflexivity|destruct H as (m & H); lia].
  - assert (O : Nat.odd (List.length l) = true) by (unfold Nat.odd; rewrite E; reflexivity). apply Nat.odd_spec in O. destruct O as (n & O).
    split; split; intros H; try discriminate; [destruct H as (m & H); lia|exists n; exact O|reflexivity].
Qed.
Example C59_byte_range_whole_case : byte_ranges [0; 10; 20]%Z = Throw EGeneral /\ byte_ranges [0; 10; 20; 30]%Z = Ok [0; 10; 20; 30]%Z.
Proof. split; reflexivity. Qed.
(** Every other range is read shifted: the second one starts where the first one's length stands. *)
Theorem C59_byte_range_refuted : forall o1 l1 o2 l2, byte_ranges [o1; l1; o2; l2] = Ok [o1; l1; o2; l2] /\
  nth_error (in_pairs [o1; l1; o2; l2]) 1 = Some (o2, l2) /\ byte_range_at [o1; l1; o2; l2] 1 = Ok (l1, o2).
Proof. intros. repeat split. Qed.

(** A stamp, a font behind a reference, a link by name, an outline of two items. *)
Definition some_heap (n : N) : obj :=
  match n with
  | 1 => OName (str "TrueType")
  | 2 => ODict [(str "Title", OLit (str "two"))]
  | 3 => OArr [ORef 9 0; OName (str "FitH"); OInt 700]
  | _ => ONull
  end.
Example C64_case :
  annotation_kind some_heap [(str "Subtype", OName (str "Stamp")); (str "Type", OName (str "Annot"))] = Throw EGeneral /\
  annotation_kind some_heap [(str "Subtype", OName (str "Redact"))] = Ok AnRedaction /\
  font_kind some_heap [(str "Subtype", ORef 1 0); (str "Type", OName (str "Font"))] = Ok FoTrueType /\
  link_destination some_heap [(str "Dests", ODict [(str "here", ORef 3 0)])] (fun _ _ => Ok None) [(str "Dest", OName (str "here"))] = Ok (Some (DeFitH, ORef 9 0)) /\
  titles some_heap 3 (Some [(str "Next", ORef 2 0); (str "Title", OHex (str "one"))]) = Ok [str "one"; str "two"].
Proof. repeat split. Qed.
Example C64_link_unknown_case :
  entry_is some_heap [(str "Dest", OName (str "A"))] (str "Dest") (OName (str "A")) /\
  (exists dests, entry_is some_heap [(str "Dests", ODict [(str "B", ORef 3 0)])] (str "Dests") (ODict dests) /\ sm_find (str "A") dests = None) /\
  match stands_for some_heap (OInt 4) with OArr _ | ODict _ | OLit _ | OHex _ | OName _ => False | _ => True end.
Proof.
  split; [exists (OName (str "A")); split; reflexivity|]. split; [|exact I].
  exists [(str "B", ORef 3 0)]. split; [exists (ODict [(str "B", ORef 3 0)]); split; reflexivity|reflexivity].
Qed.
Example C64_link_case : leads_to some_heap (ORef 3 0) DeFitH (ORef 9 0).
Proof. left. exists (OName (str "FitH")), (str "FitH"), [OInt 700]. split; [reflexivity|]. split; [reflexivity|]. split; [constructor|]. left. exists 9, 0. reflexivity. Qed.
Example C64_level_case : level some_heap (Some [(str "Next", ORef 2 0); (str "Title", OHex (str "one"))]) [str "one"; str "two"].
Proof.
  eapply lv_next; [right; exists (OHex (str "one")); split; reflexivity|exists (ORef 2 0); split; reflexivity|].
  apply lv_last; [left; exists (OLit (str "two")); split; reflexivity|reflexivity].
Qed.
Example C64_field_case : field_type some_heap [(str "Parent", ODict [(str "FT", OName (str "Tx"))]); (str "T", OLit (str "name"))] (str "Tx").
Proof. eapply ft_parent; [reflexivity|eexists; split; reflexivity|]. apply ft_own. eexists. split; reflexivity. Qed.

Print Assumptions C64_annotation_partial.
Print Assumptions C64_annotation_refuted.
Print Assumptions C64_font.
Print Assumptions C64_field_partial.
Print Assumptions C64_field_inherited_refuted.
Print Assumptions C64_destination.
Print Assumptions C64_destination_only.
Print Assumptions C64_named_destination.
Print Assumptions C64_link.
Print Assumptions C64_link_unknown.
Print Assumptions C64_values.
Print Assumptions C64_values_missing.
Print Assumptions C64_outline_level.
Print Assumptions C64_outline_parent_refuted.
Print Assumptions C64_outline_flags.
Print Assumptions C59_byte_range_first_partial.
Print Assumptions C59_byte_range_whole.
Print Assumptions C59_byte_range_refuted.

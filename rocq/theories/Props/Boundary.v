(** C86, C87: handles and null pointers at the C interface. *)
From Coq Require Import List String Arith NArith Lia Bool.
From Verif Require Import Model.Boundary Model.Interface Spec.Boundary Proof.Boundary.
Import ListNotations.
Local Open Scope string_scope.
Local Open Scope list_scope.

(** ** C86: the handles of a program stay good *)
(** whatever a program calls, in whatever order, with the handles it owns or with null: no function follows a pointer to an
    object that is gone and none takes an object for one of another class, as long as the program leaves the listed functions
    alone *)
Theorem C86_calls_partial : forall es,
  Forall (avoiding mistaking) es ->
  (forall d c, play bases es start <> Broken (Mistaken d c)) /\ (forall p, play bases es start <> Broken (Gone p)).
Proof.
  intros es H. pose proof (play_sound es start H fits_start) as G.
  split; [intros d c E|intros p E]; rewrite E in G; exact G.
Qed.
(** in every state reached, each handle that the program owns has its object, of the right class, and an object is there as long
    as the program or the library has a reference to it, and no longer *)
Theorem C86_handles_partial : forall c,
  reached mistaking c -> Forall (sound_handle (c_heap c)) (c_owned c) /\ counted c.
Proof.
  intros c H. apply (reached_fits mistaking c (fun n Hn => Hn)) in H. split.
  - apply Forall_forall. intros [[h a] v] Hin. exact (ft_object _ _ H _ _ _ Hin).
  - intros a o E. split; [exact (ft_held _ _ H _ _ E)|exact (ft_alive _ _ H _ _ E)].
Qed.
(** every handle but one can be given back, with one call that takes nothing else; the object goes away if that was the last
    reference, and no other object does *)
Theorem C86_release_partial : forall c k h a v,
  reached mistaking c -> nth_error (c_owned c) k = Some (h, a, v) -> h <> "ContentOperationBeginTextHandle" ->
  exists f, In f interface /\ f_params f = [PHandle h] /\
    forall ch, exists c',
      call bases f [AHandle k] ch c = Answer all_went_well c' /\ c_owned c' = remove_at (c_owned c) k /\
      forall b, at_ (c_heap c') b = None <->
        at_ (c_heap c) b = None \/
        (b = a /\ List.length (filter (fun x => Nat.eqb (snd (fst x)) a) (c_owned c)) = 1 /\
         exists o, at_ (c_heap c) a = Some o /\ o_lib o = 0).
Proof.
  intros c k h a v H Hk Hne. apply (reached_fits mistaking c (fun n Hn => Hn)) in H.
  destruct (all_released h v (ft_class _ _ H _ _ _ (nth_error_In _ _ Hk)) Hne) as [f [Hf [_ [Hp Hb]]]].
  exists f. split; [exact Hf|]. split; [exact Hp|]. intros ch. eexists. split; [eapply release_spec; try eassumption; reflexivity|].
  cbn [c_owned c_heap]. split; [reflexivity|]. intros b. exact (release_gone _ _ _ _ _ _ b H Hk).
Qed.
(** the one handle that cannot: once a program has it, no calls whatsoever take it away, and its object stays for ever *)
Theorem C86_begin_text_refuted :
  (exists es code c a v, Forall (avoiding mistaking) es /\ play bases es start = Answer code c /\
     In ("ContentOperationBeginTextHandle", a, v) (c_owned c)) /\
  (forall es c code c' a v, Forall (avoiding []) es -> play bases es c = Answer code c' ->
     In ("ContentOperationBeginTextHandle", a, v) (c_owned c) -> In ("ContentOperationBeginTextHandle", a, v) (c_owned c')) /\
  (forall c a v, reached mistaking c -> In ("ContentOperationBeginTextHandle", a, v) (c_owned c) -> at_ (c_heap c) a <> None).
Proof.
  split; [|split].
  - exists (run text_script).
    assert (E : match play bases (run text_script) start with Answer _ c => existsb (fun y => fst (fst y) =? "ContentOperationBeginTextHandle") (c_owned c) | _ => false end = true)
      by (vm_compute; reflexivity).
    assert (A : Forall (avoiding mistaking) (run text_script)) by (apply fine_avoiding; vm_compute; reflexivity).
    destruct (play bases (run text_script) start) as [code c| |w]; [|discriminate E|discriminate E]. apply existsb_exists in E. destruct E as [[[h a] v] [Hin E]]. apply String.eqb_eq in E. simpl in E. subst h.
    exists code, c, a, v. split; [exact A|]. split; [reflexivity|exact Hin].
  - exact play_begin_text.
  - intros c a v H Hin. apply (reached_fits mistaking c (fun n Hn => Hn)) in H. destruct (ft_object _ _ H _ _ _ Hin) as [o [E _]]. congruence.
Qed.
(** each function of the list (but FilterBase_Decode, whose handle no function gives) does harm: some program that uses it, and
    none of the others, gets an object taken for one of another class *)
Theorem C86_each_refuted : forall n,
  In n mistaking -> n <> "FilterBase_Decode" ->
  exists es d c, Forall (avoiding (but n mistaking)) es /\ play bases es start = Broken (Mistaken d c).
Proof.
  assert (H : forallb (fun n => (n =? "FilterBase_Decode") ||
    existsb (fun x => (fst x =? n) && fine (but n mistaking) (snd x) &&
      match play bases (run (snd x)) start with Broken (Mistaken _ _) => true | _ => false end) mistakes) mistaking = true) by (vm_compute; reflexivity).
  intros n Hn Hne. rewrite forallb_forall in H. specialize (H n Hn). apply orb_true_iff in H.
  destruct H as [H|H]; [apply String.eqb_eq in H; contradiction|]. apply existsb_exists in H. destruct H as [[m s] [_ H]].
  apply andb_true_iff in H. destruct H as [H H3]. apply andb_true_iff in H. destruct H as [_ H2]. simpl fst in *. simpl snd in *.
  destruct (play bases (run s) start) as [code c| |w] eqn:E; try discriminate. destruct w as [p|d c|p]; try discriminate.
  exists (run s), d, c. split; [apply fine_avoiding; exact H2|exact E].
Qed.
(** the worst of them: a real number read as an integer, a node read as the page tree, a filter read as the one for Flate *)
Theorem C86_colour_refuted :
  exists es, Forall (avoiding (but "OutlineItemColor_GetRed" mistaking)) es /\
    play bases es start = Broken (Mistaken "RealObject" "IntegerObject") /\ derives bases "RealObject" "IntegerObject" = false.
Proof.
  exists (run (snd (nth 0 mistakes ("", [])))). split; [apply fine_avoiding; vm_compute; reflexivity|]. split; vm_compute; reflexivity.
Qed.
Theorem C86_parent_refuted :
  exists es, Forall (avoiding (but "PageObject_GetParent" mistaking)) es /\
    play bases es start = Broken (Mistaken "PageTreeNode" "PageTree") /\ derives bases "PageTreeNode" "PageTree" = false.
Proof.
  exists (run (snd (nth 3 mistakes ("", [])))). split; [apply fine_avoiding; vm_compute; reflexivity|]. split; vm_compute; reflexivity.
Qed.
Theorem C86_filter_refuted :
  exists es, Forall (avoiding (but "DCTDecodeFilter_Decode" mistaking)) es /\
    play bases es start = Broken (Mistaken "DCTDecodeFilter" "FlateDecodeFilter") /\
    derives bases "DCTDecodeFilter" "FlateDecodeFilter" = false.
Proof.
  exists (run (snd (nth 5 mistakes ("", [])))). split; [apply fine_avoiding; vm_compute; reflexivity|]. split; vm_compute; reflexivity.
Qed.

(** a program that opens a document, takes its catalogue and its outlines, gives the document back, and still has the others *)
Definition visit : script :=
  [ ("Document_Open", [APlace; APlace], "Document"); ("Document_GetCatalog", [AHandle 0; APlace], "Catalog");
    ("Document_GetCatalog", [AHandle 0; APlace], "Catalog"); ("Document_Release", [AHandle 0], "") ].
Example C86_case :
  Forall (avoiding mistaking) (run visit) /\
  match play bases (run visit) start with
  | Answer code c =>
      c_owned c = [("CatalogHandle", 1, "Catalog"); ("CatalogHandle", 2, "Catalog")] /\ at_ (c_heap c) 0 = None /\
      List.length (c_heap c) = 3
  | _ => False
  end.
Proof. split; [apply fine_avoiding; vm_compute; reflexivity|]. vm_compute. auto. Qed.

(** ** C87: a null pointer is refused *)
(** in every state a program can be in: a null pointer where a handle, a place for a handle or any other pointer has to be gives
    VANILLAPDF_ERROR_PARAMETER_VALUE, and nothing changes *)
Theorem C87_refused_partial : forall c f args ch p,
  reached mistaking c -> In f interface -> ~ In (f_name f) mistaking -> ~ In (f_name f) unchecked ->
  typed (c_owned c) (f_params f) args = true -> demanded f p -> nth_error args p = Some ANull ->
  call bases f args ch c = Answer bad_parameter c.
Proof.
  intros c f args ch p H Hf Hm Hu T Hd Hp. eapply call_refuses; try eassumption.
  exact (reached_fits mistaking c (fun n Hn => Hn) H).
Qed.
(** no function but the listed ones ever follows a null pointer *)
Theorem C87_never_followed_partial : forall f args ch c p,
  In f interface -> ~ In (f_name f) unchecked -> call bases f args ch c <> Broken (NullAccess p).
Proof. exact call_no_null. Qed.
(** a program that uses neither the functions of the one list nor those of the other is never broken *)
Theorem C87_safe_partial : forall es w,
  Forall (avoiding (mistaking ++ unchecked)) es -> play bases es start <> Broken w.
Proof.
  intros es w H.
  assert (G : forall c, fits (c_heap c) (c_owned c) -> play bases es c <> Broken w).
  { induction es as [|e r IH]; intros c F; [discriminate|]. inversion H as [|e' r' He Hr]; subst. destruct e as [f args ch|a n]; cbn [play].
    - destruct He as [Hf Hn]. assert (Hm : ~ In (f_name f) mistaking) by (intros Hi; apply Hn, in_or_app; left; exact Hi).
      assert (Hu : ~ In (f_name f) unchecked) by (intros Hi; apply Hn, in_or_app; right; exact Hi).
      pose proof (call_sound f args ch c Hf Hm F) as Hc. pose proof (fun p => call_no_null f args ch c p Hf Hu) as Hn'.
      destruct (call bases f args ch c) as [code c'| |w']; [apply IH; assumption|discriminate|].
      destruct w' as [p| |]; [exfalso; exact (Hn' p eq_refl)|destruct Hc|destruct Hc].
    - apply IH; [exact Hr|]. cbn [c_heap c_owned]. apply fits_library. exact F. }
  apply G. exact fits_start.
Qed.
(** each listed function follows a null pointer where the pointer for its result should be *)
Theorem C87_each_refuted : forall n,
  In n unchecked ->
  exists es p, Forall (avoiding mistaking) es /\ play bases es start = Broken (NullAccess p) /\ demanded (public n) p.
Proof.
  assert (H : forallb (fun n =>
    existsb (fun x => let '(m, p, s) := x in (m =? n) && fine mistaking s &&
      match play bases (run s) start with Broken (NullAccess q) => Nat.eqb p q | _ => false end &&
      match nth_error (f_params (public n)) p with Some (PResult _) | Some (PPointer _) => true | _ => false end &&
      negb (spared (f_name (public n)) p) && (f_name (public n) =? n)) nulls) unchecked = true) by (vm_compute; reflexivity).
  intros n Hn. rewrite forallb_forall in H. specialize (H n Hn). apply existsb_exists in H. destruct H as [[[m p] s] [_ H]].
  repeat (apply andb_true_iff in H; destruct H as [H ?]).
  destruct (play bases (run s) start) as [code c| |w] eqn:E; try discriminate. destruct w as [q| |]; try discriminate.
  match goal with Hq : Nat.eqb p q = true |- _ => apply Nat.eqb_eq in Hq; subst q end.
  exists (run s), p. split; [apply fine_avoiding; assumption|]. split; [exact E|].
  match goal with Hx : f_name (public n) =? n = true |- _ => apply String.eqb_eq in Hx; rename Hx into Hname end.
  split.
  - destruct (nth_error (f_params (public n)) p) as [x|]; [|discriminate]. exists x. split; [reflexivity|]. intros t ->. discriminate.
  - unfold may_be_null. rewrite Hname. simpl in Hn.
    repeat match goal with Hi : _ \/ _ |- _ => destruct Hi as [Hi|Hi] | Hi : False |- _ => destruct Hi end; subst n;
      intros Hi; repeat match goal with Hj : _ \/ _ |- _ => destruct Hj as [Hj|Hj] end; destruct Hi as [Hi _]; discriminate.
Qed.

(** "Catalog_GetOutlines" without a place for its result *)
Example C87_case :
  exists c, reached mistaking c /\ typed (c_owned c) (f_params (public "Catalog_GetOutlines")) [AHandle 1; ANull] = true /\
    demanded (public "Catalog_GetOutlines") 1 /\
    call bases (public "Catalog_GetOutlines") [AHandle 1; ANull] {| ch_work := Goes; ch_object := None; ch_class := "Outline" |} c =
      Answer bad_parameter c.
Proof.
  set (s := [ ("Document_Open", [APlace; APlace], "Document"); ("Document_GetCatalog", [AHandle 0; APlace], "Catalog") ] : script).
  destruct (play bases (run s) start) as [code c| |w] eqn:E; [|vm_compute in E; discriminate E|vm_compute in E; discriminate E].
  exists c. split; [exists (run s), code; split; [apply fine_avoiding; vm_compute; reflexivity|exact E]|].
  vm_compute in E. injection E as <- <-. split; [vm_compute; reflexivity|]. split; [|vm_compute; reflexivity].
  split.
  - eexists. split; [vm_compute; reflexivity|]. intros t. discriminate.
  - unfold may_be_null. replace (f_name (public "Catalog_GetOutlines")) with "Catalog_GetOutlines" by (vm_compute; reflexivity).
    intros Hj. repeat match goal with Hj : _ \/ _ |- _ => destruct Hj as [Hj|Hj] end; destruct Hj as [Hj _]; discriminate.
Qed.

Print Assumptions C86_calls_partial.
Print Assumptions C86_handles_partial.
Print Assumptions C86_release_partial.
Print Assumptions C86_begin_text_refuted.
Print Assumptions C86_each_refuted.
Print Assumptions C86_colour_refuted.
Print Assumptions C86_parent_refuted.
Print Assumptions C86_filter_refuted.
Print Assumptions C87_refused_partial.
Print Assumptions C87_never_followed_partial.
Print Assumptions C87_safe_partial.
Print Assumptions C87_each_refuted.

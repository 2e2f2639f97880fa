(** C44, C57: the contents of a page. *)
From Coq Require Import List NArith ZArith Bool Lia String.
From Coq Require Import List.
From Verif.Model Require Import Base Object Content PageContents.
From Verif.Spec Require Import Strings Grammar Content PageContents.
From Verif.Proof Require Import Tac Strings Content ContentWrite PageContents.
From Verif.Props Require Import Content.
Import ListNotations.
Local Open Scope N_scope.

(** The instructions of a page are those of its streams in order.  Missing: streams that meet inside a word (C44_boundary_refuted), and the
    white space after ID of an image counts as data (C43). *)
Theorem C44_streams_partial : forall txts ls, Forall2 (content_text with_space) txts ls -> boundaries txts ->
  exists is c, instructions (open_array txts) = Ok (is, c) /\ map seen is = concat ls.
Proof.
  intros txts ls H Hb. destruct (C43_reads_partial _ _ (contents_app _ _ _ H Hb)) as (is & E & Es). unfold instructions, open_array. cbn [loaded bodies].
  rewrite E. cbn [rbind]. eauto.
Qed.

(** An instruction may be spread over several streams: what counts is the text the bodies make up together. *)
Theorem C44_joined : forall txts l, content_text with_space (concat txts) l -> exists is c, instructions (open_array txts) = Ok (is, c) /\ map seen is = l.
Proof.
  intros txts l H. destruct (C43_reads_partial _ _ H) as (is & E & Es). unfold instructions, open_array. cbn [loaded bodies]. rewrite E. cbn [rbind]. eauto.
Qed.

(** Asking again gives the same list. *)
Theorem C44_same_again : forall c is c2, instructions c = Ok (is, c2) -> instructions c2 = Ok (is, c2).
Proof.
  intros c is c2 H. unfold instructions in *. destruct (loaded c) eqn:E; [inversion H; subst; rewrite E; reflexivity|].
  apply rbind_ok in H. destruct H as (l & _ & H). inversion H; subst. reflexivity.
Qed.

(** Without white space between two streams their words run together, although each stream is complete. *)
Theorem C44_boundary_refuted : exists txts ls is c, Forall2 (content_text proper) txts ls /\ instructions (open_array txts) = Ok (is, c) /\ map seen is <> concat ls.
Proof.
  exists [str "q"; str "Q"], [[SOperation ([], str "q")]; [SOperation ([], str "Q")]], [IOp (OpGeneric [] (str "qQ"))], (mkContents true [str "q"; str "Q"] false true [IOp (OpGeneric [] (str "qQ"))]).
  split; [|split; [vm_compute; reflexivity|discriminate]].
  assert (H : forall w, operator_word w -> well_formed ([], w) -> ~ In w [str "BT"; str "BI"] -> content_text proper w [SOperation ([], w)]).
  { intros w Ho Hf Hn. assert (G := ct_op proper w ([], w) [] []). rewrite app_nil_r in G. apply G; [|exact Hf|exact Hn|exact I|constructor; constructor].
    apply (ox_operator [] w); [constructor|exact Ho]. }
  constructor; [|constructor; [|constructor]]; (apply H; [operator| |vm_compute; intuition discriminate]);
    cbn [well_formed]; (split; [intros _; reflexivity|]); (split; [discriminate|]); split; discriminate.
Qed.

(** Changing the list of instructions and recalculating the streams: the page opened anew shows the changed instructions.  Missing: this holds only
    when the page's stream or array has been marked dirty by some other change, and images grow (C43). *)
Theorem C57_changes_written_partial : forall c is c1 chs is2, dirty c = false -> (in_array c = true -> bodies c <> []) ->
  (in_array c = false -> exists b, bodies c = [b]) ->
  instructions c = Ok (is, c1) -> edited_all chs is is2 -> Forall (fun i => writable_instruction (seen i)) is2 ->
  exists c2, do_calls (CGet :: map CChange chs ++ [CTouch; CRecalculate]) c = Ok c2 /\ page_shows c2 (map grown (map seen is2)).
Proof.
  intros c is c1 chs is2 Hd Ha Hs Hi He Hw. cbn [do_calls do_call]. rewrite Hi. cbn [rbind]. rewrite do_calls_app.
  assert (S : loaded c1 = true /\ held c1 = is /\ bodies c1 = bodies c /\ in_array c1 = in_array c).
  { unfold instructions in Hi. destruct (loaded c) eqn:E; [inversion Hi; subst; auto|]. apply rbind_ok in Hi. destruct Hi as (l & _ & Hi). inversion Hi; subst. auto. }
  destruct S as (S1 & S2 & S3 & S4). rewrite <- S2 in He. rewrite (changes_done _ _ _ S1 He). cbn [rbind do_calls do_call in_array bodies dirty loaded held].
  destruct (recalculated (mkContents (in_array c1) (bodies c1) true true is2) eq_refl) as (c2 & E & Hp & _); cbn [in_array bodies held].
  - rewrite S3, S4. exact Ha.
  - rewrite S3, S4. exact Hs.
  - exact Hw.
  - rewrite E. cbn [rbind]. exists c2. split; [reflexivity|exact Hp].
Qed.

(** Without such a mark every change is lost: no sequence of calls for instructions, changes and recalculations alters the page. *)
Theorem C57_changes_lost_refuted : forall ks c c2, dirty c = false -> ~ In CTouch ks -> do_calls ks c = Ok c2 -> reopened c2 = reopened c.
Proof.
  intros ks c c2 Hd Hn H. destruct (clean_stays _ _ _ Hd Hn H) as (_ & E1 & E2). unfold reopened. congruence.
Qed.
(** ... so a page that shows an instruction does so after it was removed and the streams were recalculated. *)
Theorem C57_removed_stays_refuted : exists b is c2, instructions (open_stream b) = Ok (is, c2) /\ is <> [] /\
  exists c3, do_calls [CGet; CChange ChClear; CRecalculate] (open_stream b) = Ok c3 /\ page_shows c3 (map seen is).
Proof.
  exists (str "q"), [IOp (OpGeneric [] (str "q"))], (mkContents false [str "q"] false true [IOp (OpGeneric [] (str "q"))]).
  split; [vm_compute; reflexivity|]. split; [discriminate|]. exists (mkContents false [str "q"] false true []). split; [vm_compute; reflexivity|].
  exists [IOp (OpGeneric [] (str "q"))], (mkContents false [str "q"] false true [IOp (OpGeneric [] (str "q"))]). split; vm_compute; reflexivity.
Qed.

(** Recalculating a dirty page whose instructions nobody has asked for erases it. *)
Theorem C57_erased_refuted : forall b, exists c2, do_calls [CTouch; CRecalculate] (open_stream b) = Ok c2 /\ page_shows c2 [].
Proof.
  intros b. exists (mkContents false [[]] true false []). split; [reflexivity|]. exists [], (mkContents false [[]] false true []). split; vm_compute; reflexivity.
Qed.

(** Recalculating a clean page changes nothing; recalculating twice is the same as once. *)
Theorem C57_clean_unchanged : forall c, dirty c = false -> recalculate c = Ok (false, c).
Proof. intros c H. unfold recalculate. rewrite H. reflexivity. Qed.
Theorem C57_twice : forall c b c2, recalculate c = Ok (b, c2) -> exists b2, recalculate c2 = Ok (b2, c2).
Proof.
  intros c b c2 H. unfold recalculate in *. destruct (dirty c) eqn:E; cbn [negb] in H; [|inversion H; subst; rewrite E; eauto].
  destruct (in_array c) eqn:Ea; [|inversion H; subst; cbn; eauto]. destruct (bodies c) as [|x t] eqn:Eb; [discriminate|]. inversion H; subst. cbn. rewrite map_map. eauto.
Qed.

(** Changes have the effect of the edit they are named after, and places outside the list are undefined. *)
Theorem C57_edits : forall ch l l2, change_list ch l = Ok l2 <-> edited ch l l2.
Proof. exact change_spec. Qed.
Theorem C57_outside_refuted : forall l, change_list (ChRemove (N.of_nat (List.length l))) l = Undef.
Proof. intros l. cbn [change_list]. rewrite N.leb_refl. reflexivity. Qed.

(** ** cases *)
Example C44_case : Forall2 (content_text with_space) [str "BI /W 1 ID x EI "; str "BI /W 1 ID x EI "] [[SImage [(str "W", OInt 1)] (str " x")]; [SImage [(str "W", OInt 1)] (str " x")]] /\
  boundaries [str "BI /W 1 ID x EI "; str "BI /W 1 ID x EI "].
Proof.
  split; [repeat constructor; apply C43_case_image|]. split; [|split; [|exact I]]; left; exists (str "BI /W 1 ID x EI"), 32; (split; [reflexivity|vm_compute; tauto]).
Qed.
Example C57_case : exists is c1, instructions (open_array [str "BT /F 9 Tf (x) Tj T* ET "; str "q"]) = Ok (is, c1) /\
  edited_all [ChRemove 1; ChAppend (IOp (OpGeneric [OInt 1] (str "w")))] is some_instructions /\
  Forall (fun i => writable_instruction (seen i)) some_instructions.
Proof.
  exists [IText [OpTextFont (OName (str "F")) (OInt 9); OpTextShow (OLit (str "x")); OpGeneric [] (str "T*")]; IOp (OpGeneric [] (str "q"))].
  eexists. split; [|split; [|apply C43_case_roundtrip]].
  - unfold instructions, open_array. cbn [loaded bodies]. replace (parse_content _) with (Ok [IText [OpTextFont (OName (str "F")) (OInt 9); OpTextShow (OLit (str "x")); OpGeneric [] (str "T*")]; IOp (OpGeneric [] (str "q"))]) by (vm_compute; reflexivity). reflexivity.
  - eapply ea_cons; [apply (ed_remove 1 (IOp (OpGeneric [] (str "q"))) [_] []); reflexivity|]. eapply ea_cons; [apply ed_append|]. apply ea_nil.
Qed.

Print Assumptions C44_streams_partial.
Print Assumptions C44_joined.
Print Assumptions C44_same_again.
Print Assumptions C44_boundary_refuted.
Print Assumptions C57_changes_written_partial.
Print Assumptions C57_changes_lost_refuted.
Print Assumptions C57_removed_stays_refuted.
Print Assumptions C57_erased_refuted.
Print Assumptions C57_clean_unchanged.
Print Assumptions C57_twice.
Print Assumptions C57_edits.
Print Assumptions C57_outside_refuted.

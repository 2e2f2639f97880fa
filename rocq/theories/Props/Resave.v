(** C78: saving leaves the open document as it was. *)
From Coq Require Import List NArith ZArith Bool Lia String.
From Verif.Model Require Import Base SMap Object Equality Token Parser Xref StartXref Header FileWrite Chain Merge Duplicates Update Save Resave.
From Verif.Spec Require Import Grammar Xref FileWrite Chain Merge Update Unreferenced Duplicates Save Resave.
From Verif.Proof Require Import Tac Resave.
From Verif.Proof Require Unreferenced.
From Verif.Props Require Duplicates Update Save.
Import ListNotations.
Local Open Scope N_scope.

Section C78.
Variable real : bool -> N -> N -> dbl.
Variable hash : value -> N.
Variable order : list (xentry * obj) -> list N.
Variable arrange : list ditem -> list ditem.
Variable v : version.
(** the document after some actions, and what the program made of it *)
Definition after (d : document) (l : list action) : document := fst (run real hash order arrange v d l).
Definition story (d : document) (l : list action) : history := history_of (objects_of d) (combine l (snd (run real hash order arrange v d l))).
Definition answer_to (d : document) (l : list action) (a : action) : answer := snd (step real hash order arrange v (after d l) a).

(** Lookups, edits, new objects and saves of both kinds in any order: an object is read as the program left it, unless it was edited
    or created before the last incremental save. *)
Theorem C78_memory_partial : forall d l n g, just_opened d -> ~ lost (story d l) n g ->
  answer_to d l (Read n g) = Shown (wanted (story d l) n g).
Proof.
  intros d l n g O L. unfold answer_to. cbn [step snd]. f_equal. apply get_wanted; [|exact L]. exact (run_inv real hash order arrange v l d _ (opened_inv d O)).
Qed.
(** Finding: an incremental save takes every object that was edited or created out of the open document; from then on it is read as
    null, whatever the program does. *)
Theorem C78_incremental_save_refuted : forall d l n g, just_opened d -> lost (story d l) n g ->
  answer_to d l (Read n g) = Shown ONull.
Proof.
  intros d l n g O L. unfold answer_to. cbn [step snd]. f_equal. apply (get_lost _ (story d l)); [|exact L]. exact (run_inv real hash order arrange v l d _ (opened_inv d O)).
Qed.

(** As long as nothing was lost in that way, every full save writes the document as the program left it, however many saves there were
    before. *)
Theorem C78_full_save_partial : forall rl d s0 r0 l file, let f := wanted (story d l) in
  just_opened d -> d_sections d = s0 :: r0 -> nothing_deleted (tables_of d) -> (forall n g, ~ lost (story d l) n g) ->
  any_order order -> any_arrangement arrange ->
  N.of_nat (S (List.length (flat_map f_items (d_sections d)) + List.length l)) < 2 ^ 63 ->
  writable (ODict (f_trailer s0)) -> sm_find (str "XRefStm") (f_trailer s0) = None ->
  stores_objects f -> no_loose_reference f (ODict (f_trailer s0)) -> hashes_steady real hash f ->
  answer_to d l SaveAll = Written (Ok file) -> (Z.of_nat (List.length file) < 2 ^ 63)%Z ->
  exists t trailer', open_file parser_dictionary rl file = Ok (v, t, ODict trailer') /\
    forall key, In key [str "Root"; str "Info"; str "ID"] ->
      match sm_find key (f_trailer s0), sm_find key trailer' with
      | Some a, Some b => same_document real f (file_store rl file t) a b
      | None, None => True
      | _, _ => False
      end.
Proof.
  intros rl d s0 r0 l file f O Es Hdel L Ho Ha Hn Ht Hx Hst Hloose Hh Hw Hfit.
  assert (I := run_inv real hash order arrange v l d _ (opened_inv d O)).
  assert (K := run_kept real hash order arrange v l d d 0 _ (opened_kept d O Hdel) (opened_inv d O)). cbn [Nat.add] in K.
  unfold answer_to in Hw. cbn [step snd] in Hw. fold (after d l) in I, K. change (inv (after d l) (story d l)) in I. injection Hw as Hw.
  assert (Kf := k_first _ _ _ K). rewrite Es in Kf. destruct (d_sections (after d l)) as [|s r] eqn:Ed; [destruct Kf|]. destruct Kf as (_ & Kt).
  assert (Ef : forall n g, document_objects (content_of (s :: r)) (memory_chain (s :: r)) n g = f n g).
  { intros n g. rewrite <- Ed. change (get (d_sections (after d l)) n g = f n g). apply get_wanted; [exact I|apply L]. }
  assert (Kp := k_plain _ _ _ K). assert (Kd := k_deleted _ _ _ K). assert (Ks := k_size _ _ _ K). rewrite Ed in Kp, Kd, Ks. cbn [memory_chain map] in *.
  destruct (Verif.Proof.Save.undeleted_save real hash (content_of (s :: r)) order arrange rl v (shown_section s) (map shown_section r) file) as (t & tr & H1 & H2).
  - exact Ho.
  - exact Ha.
  - exact Kp.
  - exact Kd.
  - change (shown_section s :: map shown_section r) with (memory_chain (s :: r)).
    assert (El : forall c, List.length (flat_map s_entries (memory_chain c)) = List.length (flat_map f_items c)).
    { clear. induction c as [|s c IH]; [reflexivity|]. cbn [memory_chain map flat_map]. rewrite !app_length. unfold memory_chain in IH. rewrite IH. cbn [shown_section s_entries]. rewrite map_length. reflexivity. }
    rewrite El. clear - Ks Hn. lia.
  - cbn [shown_section s_trailer]. rewrite Kt. exact Ht.
  - cbn [shown_section s_trailer]. rewrite Kt. exact Hx.
  - intros n g. rewrite Ef. exact (Hst n g).
  - cbn [shown_section s_trailer]. rewrite Kt. intros n g Hm. rewrite Ef. apply Hloose. destruct Hm as [Hm|(m & gm & Hm)]; [left; exact Hm|right; exists m, gm; rewrite <- Ef; exact Hm].
  - intros n g. rewrite Ef. destruct (Hh n g) as [A|(m & dd & A & B)]; [left; exact A|right]. exists m, dd. split; [exact A|]. intros n' g' m' E. rewrite Ef in E. exact (B n' g' m' E).
  - exact Hw.
  - exact Hfit.
  - exists t, tr. split; [exact H1|]. intros key Hk. specialize (H2 key Hk). cbn [shown_section s_trailer] in H2. rewrite Kt in H2.
    destruct (sm_find key (f_trailer s0)), (sm_find key tr); try exact H2. intros k. exact (resembles_same_store _ _ _ _ Ef k _ _ (H2 k)).
Qed.

(** An incremental save writes exactly the objects that were edited or created and are not lost yet, as the program left them. *)
Theorem C78_update_partial : forall decode rl d s0 r0 l file', let h := story d l in
  just_opened d -> d_sections d = s0 :: r0 -> nothing_deleted (tables_of d) ->
  N.of_nat (List.length (flat_map f_items (d_sections d)) + List.length l) + 1 < 2 ^ 63 ->
  writable (ODict (f_trailer s0)) -> (forall x, ~ In (str "XRefStm", x) (f_trailer s0)) -> (0 <= f_offset s0 < 2 ^ 63)%Z ->
  (forall n g, touched h n g -> ~ lost h n g -> n < 2 ^ 63 /\ storable (wanted h n g)) ->
  answer_to d l SaveUpdate = Written (Ok file') -> (Z.of_nat (List.length file') < 2 ^ 63)%Z ->
  (exists more, file' = d_file d ++ more) /\
  exists offset sec, last_xref_offset file' = Ok offset /\ (forall c, read_section parser_dictionary decode file' c offset = Ok (c, sec)) /\
    (forall n g, touched h n g -> ~ lost h n g -> exists at_ o',
      entry_of sec n {| xnum := n; xgen := g; xdata := KUsed at_ true |} /\
      load_entry parser_dictionary rl file' {| xnum := n; xgen := g; xdata := KUsed at_ true |} = Ok (n, g, o') /\ same_object (wanted h n g) o') /\
    (forall x, In x (s_entries sec) -> xnum x = 0 \/ exists g, touched h (xnum x) g /\ ~ lost h (xnum x) g).
Proof.
  intros decode rl d s0 r0 l file' h O Es Hdel Hn Ht Hx Hoff Hsv Hw Hfit.
  assert (I := run_inv real hash order arrange v l d _ (opened_inv d O)).
  assert (K := run_kept real hash order arrange v l d d 0 _ (opened_kept d O Hdel) (opened_inv d O)). cbn [Nat.add] in K.
  unfold answer_to in Hw. cbn [step snd] in Hw. injection Hw as Hw.
  exact (update_written decode rl d s0 r0 _ h (List.length l) file' Es K I Ht Hx Hoff Hn Hsv Hw Hfit).
Qed.
(** Finding: the second of two incremental saves writes no object at all: for every document and every history, its section lists only
    the head of the free list, so the file it writes is the original one without any of the changes. *)
Theorem C78_second_update_refuted : forall (decode : list (bytes * obj) -> bytes -> res bytes) d s0 r0 l file',
  just_opened d -> d_sections d = s0 :: r0 -> nothing_deleted (tables_of d) ->
  N.of_nat (List.length (flat_map f_items (d_sections d)) + S (List.length l)) + 1 < 2 ^ 63 ->
  writable (ODict (f_trailer s0)) -> (forall x, ~ In (str "XRefStm", x) (f_trailer s0)) -> (0 <= f_offset s0 < 2 ^ 63)%Z ->
  answer_to d (l ++ [SaveUpdate]) SaveUpdate = Written (Ok file') -> (Z.of_nat (List.length file') < 2 ^ 63)%Z ->
  exists offset sec, last_xref_offset file' = Ok offset /\ (forall c, read_section parser_dictionary decode file' c offset = Ok (c, sec)) /\
    forall x, In x (s_entries sec) -> xnum x = 0.
Proof.
  intros decode d s0 r0 l file' O Es Hdel Hn Ht Hx Hoff Hw Hfit.
  assert (Hl : forall n g, touched (story d (l ++ [SaveUpdate])) n g -> lost (story d (l ++ [SaveUpdate])) n g).
  { unfold story, history_of. set (h0 := {| wanted := objects_of d; touched := _; lost := _ |}). clear. generalize h0, d. induction l as [|a l IH]; intros h e; cbn [app Resave.run].
    - cbn [combine snd fold_left step fst next_history touched lost]. auto.
    - destruct (step real hash order arrange v e a) as [e1 x]. specialize (IH (next_history h (a, x)) e1). destruct (run real hash order arrange v e1 (l ++ [SaveUpdate])) as [e2 xs]. exact IH. }
  destruct (C78_update_partial decode Update.C36_rl d s0 r0 (l ++ [SaveUpdate]) file' O Es Hdel) as (_ & off & sec & E1 & E2 & _ & E3); try assumption.
  - rewrite app_length. cbn [List.length]. clear - Hn. lia.
  - intros n g T NL. exfalso. exact (NL (Hl n g T)).
  - exists off, sec. split; [exact E1|]. split; [exact E2|]. intros x Hi. destruct (E3 x Hi) as [E|(g & T & NL)]; [exact E|]. exfalso. exact (NL (Hl _ g T)).
Qed.
End C78.

(** *** A document with an empty page tree; the program adds a page. *)
Definition C78_trailer : list (bytes * obj) := [(str "Root", ORef 1 0); (str "Size", OInt 3)].
Definition C78_catalog : obj := ODict [(str "Pages", ORef 2 0); (str "Type", OName (str "Catalog"))].
Definition C78_empty_tree : obj := ODict [(str "Count", OInt 0); (str "Kids", OArr [])].
Definition C78_tree : obj := ODict [(str "Count", OInt 1); (str "Kids", OArr [ORef 3 0])].
Definition C78_page : obj := ODict [(str "Parent", ORef 2 0); (str "Type", OName (str "Page"))].
Definition C78_items : list (xentry * obj) := [Update.C36_free; (Update.C36_used 1 15, C78_catalog); (Update.C36_used 2 66, C78_empty_tree)].
Definition C78_file : bytes := match write_tables PDF14 [(C78_items, [(str "Root", ORef 1 0)])] with Ok f => f | _ => [] end.
Definition C78_document : document :=
  {| d_file := C78_file; d_next := 0;
     d_sections := [{| f_offset := Update.offset_of C78_file; f_items := map (Update.item false) C78_items; f_trailer := C78_trailer |}] |}.
Definition C78_edits : list action := [Change 2 0 C78_tree; Create C78_page].
Notation answer_here := (answer_to Save.any_real Duplicates.plain_hash Save.by_number Save.as_listed PDF14).
Notation story_here := (story Save.any_real Duplicates.plain_hash Save.by_number Save.as_listed PDF14).

(** Finding: a full save after an incremental one writes a document whose page tree is gone. *)
Theorem C78_full_after_update_refuted :
  wanted (story_here C78_document (C78_edits ++ [SaveUpdate])) 2 0 = C78_tree /\
  exists file t trailer', answer_here C78_document (C78_edits ++ [SaveUpdate]) SaveAll = Written (Ok file) /\
    open_file parser_dictionary Save.no_length file = Ok (PDF14, t, ODict trailer') /\ sm_find (str "Root") trailer' = Some (ORef 1 0) /\
    file_store Save.no_length file t 1 0 = C78_catalog /\ file_store Save.no_length file t 2 0 = ONull /\
    ~ same_document Save.any_real (wanted (story_here C78_document (C78_edits ++ [SaveUpdate]))) (file_store Save.no_length file t) (ORef 1 0) (ORef 1 0).
Proof.
  split; [vm_compute; reflexivity|]. eexists. eexists. eexists. split; [vm_compute; reflexivity|]. split; [vm_compute; reflexivity|]. split; [reflexivity|].
  split; [vm_compute; reflexivity|]. split; [vm_compute; reflexivity|]. intros H. specialize (H 2%nat).
  match type of H with resembles _ ?ws ?fs _ _ _ => assert (E1 : fs 1 0 = C78_catalog) by (vm_compute; reflexivity); assert (E2 : fs 2 0 = ONull) by (vm_compute; reflexivity);
    assert (W1 : ws 1 0 = C78_catalog) by (vm_compute; reflexivity); assert (W2 : ws 2 0 = C78_tree) by (vm_compute; reflexivity); set (F := fs) in *; set (W := ws) in * end.
  clearbody F W. cbn [resembles seen_at] in H. rewrite E1, W1 in H. unfold C78_catalog in H at 1.
  inversion H as [| | |? ? v0 T0 _|? ? N0 _ _| |? ? (D1 & _)|]; [discriminate T0|destruct N0|]. destruct (D1 (str "Pages") (ORef 2 0) (or_introl eq_refl) (fun x => x)) as (b & Hin & R).
  Verif.Props.Save.one_of Hin; try discriminate Hin. injection Hin as <-. cbn [seen_at] in R. rewrite E2, W2 in R.
  inversion R as [| | |? ? v0 T0 T1|? ? N0 N1 _| | |]; [discriminate T0|destruct N0].
Qed.

Example C78_case : just_opened C78_document /\ nothing_deleted (tables_of C78_document) /\ writable (ODict C78_trailer) /\
  (forall n g, ~ lost (story_here C78_document C78_edits) n g) /\
  (let f := wanted (story_here C78_document C78_edits) in
   stores_objects f /\ no_loose_reference f (ODict C78_trailer) /\ hashes_steady Save.any_real Duplicates.plain_hash f) /\
  touched (story_here C78_document C78_edits) 2 0 /\ touched (story_here C78_document C78_edits) 3 0 /\
  lost (story_here C78_document (C78_edits ++ [SaveUpdate])) 2 0 /\
  answer_here C78_document C78_edits (Read 2 0) = Shown C78_tree /\ answer_here C78_document C78_edits (Read 3 0) = Shown C78_page /\
  answer_here C78_document (C78_edits ++ [SaveUpdate]) (Read 2 0) = Shown ONull /\
  (exists f1 f2 f3, answer_here C78_document C78_edits SaveAll = Written (Ok f1) /\ answer_here C78_document C78_edits SaveUpdate = Written (Ok f2) /\
    answer_here C78_document (C78_edits ++ [SaveUpdate]) SaveUpdate = Written (Ok f3) /\ Update.lookup f2 2 = Ok C78_tree /\ Update.lookup f3 2 = Ok C78_empty_tree).
Proof.
  assert (Ew : forall n g, wanted (story_here C78_document C78_edits) n g = put 3 0 C78_page (put 2 0 C78_tree (objects_of C78_document)) n g) by (intros; vm_compute; reflexivity).
  assert (Ec : forall (P : N -> N -> obj -> Prop), P 3 0 C78_page -> P 2 0 C78_tree -> P 1 0 C78_catalog -> (forall n g, P n g ONull) -> forall n g, P n g (wanted (story_here C78_document C78_edits) n g)).
  { intros P P3 P2 P1 P0 n g. rewrite Ew. unfold put. destruct (n =? 3) eqn:E3, (g =? 0) eqn:Eg; cbn [andb];
      (destruct (n =? 2) eqn:E2; cbn [andb]); try (replace n with 3 by lia; replace g with 0 by lia; exact P3); try (replace n with 2 by lia; replace g with 0 by lia; exact P2); try lia.
    all: unfold objects_of; destruct (find _ _) as [x|] eqn:Ef; [|apply P0]; apply find_some in Ef; destruct Ef as (Hx & Ef); apply andb_true_iff in Ef; destruct Ef as (Ea & Eb); apply N.eqb_eq in Ea, Eb;
      cbn [C78_document d_sections flat_map f_items C78_items map app] in Hx; destruct Hx as [<-|[<-|[<-|[]]]]; cbn in Ea, Eb; subst n g;
      first [apply P0|exact P1|discriminate]. }
  split; [|split; [|split; [|split; [|split; [split; [|split]|]]]]].
  - split; [discriminate|]. split; [intros s [<-|[]]; cbn; repeat constructor; cbn; intuition discriminate|]. split; [cbn; repeat constructor; cbn; intuition discriminate|].
    intros x Hx. cbn [C78_document d_sections flat_map f_items C78_items map app] in Hx. destruct Hx as [<-|[<-|[<-|[]]]]; cbn; repeat split; lia.
  - intros newer s older e s' e' Ec' He Hn Hs'. destruct newer as [|x newer]; [injection Ec' as <- <-; destruct Hs'|]. apply (f_equal (@tl _)) in Ec'. destruct newer; discriminate.
  - Verif.Props.Save.write_it.
  - intros n g H. vm_compute in H. exact H.
  - intros n g. apply (Ec (fun _ _ o => storable o /\ forall n' g', o <> ORef n' g')); [| | |intros n' g'; split; [apply st_direct; constructor|discriminate]]; (split; [|discriminate]).
    + unfold C78_page. Verif.Props.Save.write_it.
    + unfold C78_tree. Verif.Props.Save.write_it.
    + unfold C78_catalog. Verif.Props.Save.write_it.
  - intros n g [H|(m & gm & H)].
    + apply Unreferenced.refs_mentions in H. Verif.Props.Save.one_of H. injection H as <- <-. rewrite Ew. discriminate.
    + revert n g H. apply (Ec (fun _ _ o => forall n g, mentions n g o -> wanted (story_here C78_document C78_edits) n g <> ONull));
        intros; match goal with H : mentions _ _ _ |- _ => apply Unreferenced.refs_mentions in H; Verif.Props.Save.one_of H; try (injection H as <- <-); rewrite Ew; discriminate end.
  - intros n g. left. apply (Ec (fun n g o => steady Duplicates.plain_hash {| d_num := n; d_gen := g; d_comp := false; d_value := value_of Save.any_real o; d_cache := 0 |}));
      intros; first [solve [right; vm_compute; discriminate]|solve [left; cbn; repeat constructor]].
  - split; [vm_compute; tauto|]. split; [vm_compute; tauto|]. split; [vm_compute; tauto|]. split; [vm_compute; reflexivity|]. split; [vm_compute; reflexivity|]. split; [vm_compute; reflexivity|].
    eexists. eexists. eexists. split; [vm_compute; reflexivity|]. split; [vm_compute; reflexivity|]. split; [vm_compute; reflexivity|]. split; vm_compute; reflexivity.
Qed.

Print Assumptions C78_memory_partial.
Print Assumptions C78_incremental_save_refuted.
Print Assumptions C78_full_save_partial.
Print Assumptions C78_update_partial.
Print Assumptions C78_second_update_refuted.
Print Assumptions C78_full_after_update_refuted.

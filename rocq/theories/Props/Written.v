(** C93: saved files follow the standard, and mean the document that was saved. *)
From Coq Require Import List NArith ZArith Bool Lia String Sorted.
From Coq Require Import List.
From Verif.Model Require Import Base Char Numbers SMap Object Xref StartXref Header FileWrite Chain Update.
From Verif.Spec Require Import Strings Grammar FileWrite Update Conforming Written Crash.
From Verif.Proof Require Import Tac SMap StreamObj Xref FileWrite Update Conforming Written.
From Verif.Props Require Import Update Crash.
Import ListNotations.
Local Open Scope N_scope.

(** Every file that a full save writes, up to ten gigabytes: it is a file as the standard describes it, with one section for every section
    of the document; the trailers have the keys of the document's; and every reference stands for the object the document has.  Missing:
    the Size of the trailers, and the files of C93_long_row_refuted. *)
Theorem C93_saved_partial : forall v c file, Forall section_saveable c -> Forall short_links c -> c <> [] ->
  (forall s rest x, c = s :: rest -> ~ In (str "Prev", x) (snd s)) ->
  write_tables v c = Ok file -> (Z.of_nat (List.length file) <= 10 ^ 10)%Z ->
  exists revs, conforming file v revs /\ Forall2 same_trailer (map snd c) (map r_trailer (rev revs)) /\
    (forall e o, newest c e o ->
       match xdata e with
       | KUsed _ _ => (exists o', same_object o o' /\ stands_for file revs (xnum e) (xgen e) o') /\ forall g, g <> xgen e -> stands_for file revs (xnum e) g ONull
       | _ => forall g, stands_for file revs (xnum e) g ONull
       end) /\
    forall n g, unknown c n -> stands_for file revs n g ONull.
Proof.
  intros v c file Hs Hk Hne Hp Hw Hlen. unfold write_tables in Hw.
  destruct (append_sections_grow _ _ _ _ Hw) as (more & Em).
  destruct (chain_conforms c (write_header v) None file []) as (revs & off & C1 & C2 & C3 & C4); [split; [reflexivity|exact Hp]|assumption..|].
  specialize (C1 []). rewrite !app_nil_r in C1. exists revs. split; [|split; [|split]].
  - apply (conforming_from file v off revs C1 C2 C4); [|exact Hlen]. exists [10], ([37; 222; 173; 192; 222] ++ [10] ++ more). split; [left; reflexivity|].
    rewrite Em. unfold write_header. rewrite <- !app_assoc. destruct v; reflexivity.
  - clear - C3. induction C3 as [|r s lr ls [_ H] F IH]; [constructor|]. cbn [map]. constructor; assumption.
  - assert (F : Forall2 (written file) (rev revs) c).
    { clear - C3. induction C3 as [|r s lr ls [H _] F IH]; constructor; [|assumption]. specialize (H []). rewrite app_nil_r in H. exact H. }
    intros e o Hn. destruct (written_current file revs c F e o Hn) as (r & older & newer & E & Hno & H).
    assert (Hc : forall row, In (xnum e, row) (r_rows r) -> current revs (xnum e) row older) by (intros row Hr; exists newer, r; auto).
    destruct (xdata e) as [next|z u|a b]; [intros g; apply (sf_free _ _ _ _ (xgen e) older), Hc, H| |intros g; apply (sf_free _ _ _ _ (xgen e) older), Hc, H].
    destruct H as (pos & o' & H1 & H2 & H3). split.
    + exists o'. split; [exact H3|]. apply (sf_object _ _ _ _ pos older); [apply Hc, H1|apply stored_body, H2].
    + intros g Hg. apply (sf_other _ _ _ _ pos (xgen e) older); [apply Hc, H1|congruence].
  - assert (F : Forall2 (written file) (rev revs) c).
    { clear - C3. induction C3 as [|r s lr ls [H _] F IH]; constructor; [|assumption]. specialize (H []). rewrite app_nil_r in H. exact H. }
    intros n g Hu. apply sf_unknown. exact (written_unknown file revs c n F Hu).
Qed.

(** What an incremental save adds to a file that follows the standard, whoever wrote that file. *)
Lemma update_conforms : forall file v off revs s r file' e0 o0, conforming file v revs -> updatable s r -> changed_live (s :: r) e0 o0 ->
  write_incremental file (s :: r) = Ok file' -> (Z.of_nat (List.length file') <= 10 ^ 10)%Z ->
  (0 <= off)%Z -> forall revs0, revisions file (Z.to_N off) revs0 ->
  sm_find (str "Prev") (f_trailer s) = None /\ off = f_offset s \/ sm_find (str "Prev") (f_trailer s) = Some (OInt off) ->
  exists rn, conforming file' v (rn :: revs0) /\
    (forall k, In k document_keys -> sm_find k (r_trailer rn) = sm_find k (f_trailer s)) /\
    (forall e o, changed_live (s :: r) e o -> exists o', same_object o o' /\ stands_for file' (rn :: revs0) (xnum e) (xgen e) o') /\
    (forall n, n <> 0 -> unchanged (s :: r) n -> forall row, ~ In (n, row) (r_rows rn)) /\
    (forall z, In (str "Size", OInt z) (r_trailer rn) -> (z <= Z.of_N (change_count (s :: r)) + 1)%Z) /\ (exists z, In (str "Size", OInt z) (r_trailer rn)) /\
    (forall e o, changed_live (s :: r) e o -> exists pos, In (xnum e, InUse pos (xgen e)) (r_rows rn)) /\
    exists more, file' = file ++ [10] ++ more.
Proof.
  intros file v off revs s r file' e0 o0 Hc (U1 & U2 & U3 & U4 & U5 & U6) Hch Hw Hlen Hoff revs0 Hr Hprev.
  destruct (incremental_conforms file s r file' U1 U3 U4 U5 U6 Hw Hlen (some_change _ _ _ Hch)) as (off' & rn & more & E & L1 & L2 & L3 & L4 & L5 & L6).
  exists rn. assert (Hrev := L6 off revs0 Hoff Hr Hprev). split; [|split; [exact L4|split; [|split; [|split; [|split; [|split; [|exists more; exact E]]]]]]].
  - destruct Hc as (offc & _ & (le & rest & Hle & Ef) & _). apply (conforming_from file' v off' _ Hrev L1 L2); [|exact Hlen].
    exists le, (rest ++ [10] ++ more). split; [exact Hle|]. rewrite E, Ef, <- !app_assoc. reflexivity.
  - intros e o Hl. assert (Hin := changed_listed _ _ _ U2 Hl). destruct Hl as (s1 & z & _ & Hd & _). assert (H := proj2 L3 e o Hin). rewrite Hd in H.
    destruct H as (pos & o' & H1 & H2 & H3). exists o'. split; [exact H3|]. apply (sf_object _ _ _ _ pos revs0); [|apply stored_body, H2].
    exists [], rn. split; [reflexivity|]. split; [exact H1|]. intros x q [].
  - intros n Hn Hu row Hin. apply (in_map fst) in Hin. rewrite (proj1 L3) in Hin. cbn [fst] in Hin. apply in_map_iff in Hin. destruct Hin as (p & Ep & Hp).
    exact (add_all_numbers _ _ Hn Hu p Hp Ep).
  - assert (Hcnt := changes_count (s :: r)). intros z Hz. apply L5 in Hz.
    assert (z = Z.of_nat (List.length (add_all (changes (s :: r)) [list_head]))) by congruence. lia.
  - eexists. apply L5. reflexivity.
  - intros e o Hl. assert (Hin := changed_listed _ _ _ U2 Hl). destruct Hl as (s1 & z & _ & Hd & _). assert (H := proj2 L3 e o Hin). rewrite Hd in H.
    destruct H as (pos & o' & H1 & _). exists pos. exact H1.
Qed.

(** A file that follows the standard, whoever wrote it, updated for the first time: the result follows the standard and has one section
    more; changed objects stand for their new state, and all others for what they stood for.  Missing: the Size of the new trailer, and
    further updates. *)
Theorem C93_updated_partial : forall file v revs s r file' e0 o0, conforming file v revs -> revisions file (Z.to_N (f_offset s)) revs ->
  updatable s r -> (forall x, ~ In (str "Prev", x) (f_trailer s)) -> changed_live (s :: r) e0 o0 ->
  write_incremental file (s :: r) = Ok file' -> (Z.of_nat (List.length file') <= 10 ^ 10)%Z ->
  exists rn, conforming file' v (rn :: revs) /\
    (forall k, In k document_keys -> sm_find k (r_trailer rn) = sm_find k (f_trailer s)) /\
    (forall e o, changed_live (s :: r) e o -> exists o', same_object o o' /\ stands_for file' (rn :: revs) (xnum e) (xgen e) o') /\
    forall n, n <> 0 -> unchanged (s :: r) n ->
      (forall g pos older o, current revs n (InUse pos g) older -> object_at complete_text file pos n g o -> stands_for file' (rn :: revs) n g o) /\
      (forall g g' older, current revs n (Free g') older -> stands_for file' (rn :: revs) n g ONull) /\
      (forall g, not_listed revs n -> stands_for file' (rn :: revs) n g ONull).
Proof.
  intros file v revs s r file' e0 o0 Hc Hr Hu Hp Hch Hw Hlen.
  assert (Hpf : sm_find (str "Prev") (f_trailer s) = None) by (apply not_in_find; [apply Hu|apply str_bytes|exact Hp]).
  assert (Ho : (0 <= f_offset s)%Z) by (destruct Hu as (_ & _ & _ & _ & H & _); lia).
  destruct (update_conforms file v (f_offset s) revs s r file' e0 o0 Hc Hu Hch Hw Hlen Ho revs Hr (or_introl (conj Hpf eq_refl)))
    as (rn & R1 & R2 & R3 & R4 & _ & _ & _ & more & E).
  exists rn. split; [exact R1|]. split; [exact R2|]. split; [exact R3|]. intros n Hn Hun. specialize (R4 n Hn Hun).
  assert (G : forall row older, current revs n row older -> current (rn :: revs) n row older).
  { intros row older (newer & x & -> & H1 & H2). exists (rn :: newer), x. split; [reflexivity|]. split; [exact H1|]. intros y q [<-|Hy]; [apply R4|apply H2, Hy]. }
  split; [|split].
  - intros g pos older o Hcur Hat. apply (sf_object _ _ _ _ pos older); [apply G, Hcur|]. apply stored_body. rewrite E. apply object_grow; [left; exact white10|exact Hat].
  - intros g g' older Hcur. apply (sf_free _ _ _ _ g' older), G, Hcur.
  - intros g Hnl. apply sf_unknown. intros x q [<-|Hx]; [apply R4|apply Hnl, Hx].
Qed.

(** Every later update: the section it adds leads to the one before the newest one, so that all that the newest section [r0] recorded is
    gone from the file. *)
Theorem C93_second_update_refuted : forall file v r0 older s r file' e0 o0 prev, conforming file v (r0 :: older) -> revisions file (Z.to_N prev) older -> (0 <= prev)%Z ->
  updatable s r -> In (str "Prev", OInt prev) (f_trailer s) -> changed_live (s :: r) e0 o0 ->
  write_incremental file (s :: r) = Ok file' -> (Z.of_nat (List.length file') <= 10 ^ 10)%Z ->
  exists rn, conforming file' v (rn :: older) /\
    forall n g pos o, n <> 0 -> unchanged (s :: r) n -> In (n, InUse pos g) (r_rows r0) -> object_at complete_text file pos n g o ->
      stands_for file (r0 :: older) n g o /\ (not_listed older n -> stands_for file' (rn :: older) n g ONull) /\
      forall pos' older' o', current older n (InUse pos' g) older' -> object_at complete_text file pos' n g o' -> stands_for file' (rn :: older) n g o'.
Proof.
  intros file v r0 older s r file' e0 o0 prev Hc Hr Ho Hu Hp Hch Hw Hlen.
  assert (Hpf : sm_find (str "Prev") (f_trailer s) = Some (OInt prev)) by (apply in_find; [apply Hu|apply str_bytes|exact Hp]).
  destruct (update_conforms file v prev (r0 :: older) s r file' e0 o0 Hc Hu Hch Hw Hlen Ho older Hr (or_intror Hpf)) as (rn & R1 & _ & _ & R4 & _ & _ & _ & more & E).
  exists rn. split; [exact R1|]. intros n g pos o Hn Hun Hin Hat. specialize (R4 n Hn Hun). split; [|split].
  - apply (sf_object _ _ _ _ pos older); [|apply stored_body, Hat]. exists [], r0. split; [reflexivity|]. split; [exact Hin|]. intros x q [].
  - intros Hnl. apply sf_unknown. intros x q [<-|Hx]; [apply R4|apply Hnl, Hx].
  - intros pos' older' o' (newer & x & -> & H1 & H2) Hat'. apply (sf_object _ _ _ _ pos' older').
    + exists (rn :: newer), x. split; [reflexivity|]. split; [exact H1|]. intros y q [<-|Hy]; [apply R4|apply H2, Hy].
    + apply stored_body. rewrite E. apply object_grow; [left; exact white10|exact Hat'].
Qed.

(** Every update of an object whose number exceeds the number of changes: the new trailer's Size does not cover it, and a reader that
    follows 7.5.5 takes the object for missing. *)
Theorem C93_size_refuted : forall file v revs s r file' e o, conforming file v revs -> revisions file (Z.to_N (f_offset s)) revs ->
  updatable s r -> (forall x, ~ In (str "Prev", x) (f_trailer s)) -> changed_live (s :: r) e o -> change_count (s :: r) < xnum e ->
  write_incremental file (s :: r) = Ok file' -> (Z.of_nat (List.length file') <= 10 ^ 10)%Z ->
  exists rn, conforming file' v (rn :: revs) /\ ~ size_covers rn.
Proof.
  intros file v revs s r file' e o Hc Hr Hu Hp Hch Hn Hw Hlen.
  assert (Hpf : sm_find (str "Prev") (f_trailer s) = None) by (apply not_in_find; [apply Hu|apply str_bytes|exact Hp]).
  assert (Ho : (0 <= f_offset s)%Z) by (destruct Hu as (_ & _ & _ & _ & H & _); lia).
  destruct (update_conforms file v (f_offset s) revs s r file' e o Hc Hu Hch Hw Hlen Ho revs Hr (or_introl (conj Hpf eq_refl)))
    as (rn & R1 & _ & _ & _ & R5 & (z & Hz) & R7 & _).
  exists rn. split; [exact R1|]. destruct (R7 e o Hch) as (pos & Hpos). intros Hcov. specialize (R5 z Hz). specialize (Hcov z (xnum e) _ Hz Hpos). lia.
Qed.

(** The row of an object behind the first ten gigabytes is longer than the standard's twenty bytes. *)
Theorem C93_long_row_refuted : forall e offset, xdata e = KUsed offset true -> (10 ^ 10 <= offset)%Z -> forall r, ~ row_text (table_row e) r.
Proof.
  intros e offset Hd Ho r (d10 & d5 & letter & le & a & g & E & L10 & _ & L5 & _ & _ & Hle & _).
  unfold table_row in E. rewrite Hd in E. apply (f_equal (@List.length _)) in E. rewrite !app_length in E.
  replace offset with (Z.of_N (Z.to_N offset)) in E by lia. rewrite !fmt_0_ok in E.
  assert (H : (10 < List.length (to_string_N (Z.to_N offset)))%nat) by (apply long_digits; change (10 ^ N.of_nat 10) with 10000000000; change (10 ^ 10)%Z with 10000000000%Z in Ho; lia).
  assert (P : forall w n, (List.length (to_string_N n) <= List.length (pad_zero w (to_string_N n)))%nat) by (intros w n; unfold pad_zero; rewrite app_length; lia).
  assert (P2 : forall w n, (w <= List.length (pad_zero w (to_string_N n)))%nat) by (intros w n; unfold pad_zero; rewrite app_length, repeat_length; lia).
  assert (H1 := P 10%nat (Z.to_N offset)). assert (H2 := P2 5%nat (xgen e)). cbn [List.length] in E. destruct Hle as [<-|[<-|[<-|[]]]]; cbn [List.length] in E; lia.
Qed.

Example C93_case : exists revs, Forall section_saveable [(C36_document, C36_trailer)] /\ Forall short_links [(C36_document, C36_trailer)] /\
  write_tables PDF14 [(C36_document, C36_trailer)] = Ok C36_file /\ newest [(C36_document, C36_trailer)] (C36_used 2 0) (OInt 5) /\
  conforming C36_file PDF14 revs /\ revisions C36_file (Z.to_N (f_offset C36_source)) revs /\
  updatable C36_source [] /\ changed_live [C36_source] (C36_used 2 49) (OInt 6) /\ unchanged [C36_source] 1 /\ change_count [C36_source] < xnum (C36_used 2 49) /\
  write_incremental C36_file [C36_source] = Ok C36_file2 /\ (Z.of_nat (List.length C36_file2) <= 10 ^ 10)%Z.
Proof.
  destruct C36_case as (S & Hp & Ew & Eo & Et & I1 & I2 & _ & E2 & _).
  assert (Fs : Forall section_saveable [(C36_document, C36_trailer)]) by (constructor; [exact S|constructor]).
  assert (Fk : Forall short_links [(C36_document, C36_trailer)]).
  { constructor; [|constructor]. intros e o next Hin Hd. cbn [fst C36_document In] in Hin. destruct Hin as [H|[H|[H|[]]]]; apply (f_equal fst) in H; cbn [fst C36_free] in H; subst e; cbn in Hd; try discriminate Hd.
    assert (next = 0) by congruence. subst next. reflexivity. }
  destruct (C93_saved_partial PDF14 _ C36_file Fs Fk) as (revs & Hc & _); [discriminate| |exact Ew|vm_compute; discriminate|].
  { intros s rest x E. assert (s = (C36_document, C36_trailer)) by congruence. subst s. apply Hp. }
  exists revs. split; [exact Fs|]. split; [exact Fk|]. split; [exact Ew|]. split; [|split; [exact Hc|]].
  { exists [], (C36_document, C36_trailer), []. split; [reflexivity|]. split; [right; right; left; reflexivity|intros ? ? []]. }
  split; [destruct (newest_place _ _ _ Hc) as (off & Hr & E); rewrite E in Eo; apply Ok_inj in Eo; rewrite <- Eo, N2Z.id; exact Hr|].
  split; [|split; [|split; [|split; [vm_compute; reflexivity|split; [exact E2|vm_compute; discriminate]]]]].
  - split; [exact I1|]. split; [exact I2|]. split; [cbn [C36_source f_trailer]; exact (C36_trailer_writable 3 ltac:(lia))|]. split; [intros x [E|[E|[]]]; discriminate|].
    split; [vm_compute; split; [discriminate|reflexivity]|vm_compute; reflexivity].
  - exists C36_source, 49%Z. split; [left; reflexivity|]. split; [reflexivity|]. right. right. left. reflexivity.
  - intros s x [<-|[]] Hx Hd. cbn [C36_source f_items In] in Hx. destruct Hx as [<-|[<-|[<-|[]]]]; try discriminate Hd. cbn. discriminate.
Qed.

Print Assumptions C93_saved_partial.
Print Assumptions C93_updated_partial.
Print Assumptions C93_second_update_refuted.
Print Assumptions C93_size_refuted.
Print Assumptions C93_long_row_refuted.

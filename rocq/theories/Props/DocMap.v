(** C63: opening a document does not depend on what was opened before. *)
From Coq Require Import List NArith Bool Lia.
From Verif.Model Require Import Base DocMap.
From Verif.Spec Require Import DocMap.
From Verif.Proof Require Import Tac DocMap.
Import ListNotations.
Local Open Scope N_scope.

(** After any history of opening and closing files and documents that can be read, every call gives the answer of a world without
    addresses: the open document of the file if there is one, a new one otherwise, never an error. *)
Theorem C63_open_partial : forall cs, only_readable cs -> allowed cs -> snd (run nothing_open cs) = snd (expect_run fresh_world cs).
Proof.
  intros cs Hr Ha. apply run_agrees; [exact Hr|intros x []|apply inv_nothing|apply live_nothing|repeat split|exact Ha].
Qed.

(** No document is ever given out for a file other than its own, whatever was opened before. *)
Theorem C63_never_another_file : forall cs f s d,
  s = fst (run nothing_open cs) -> snd (step s (OpenDocument f)) = ADocument d ->
  exists y, find_doc (fst (step s (OpenDocument f))) d = Some y /\ d_file y = f.
Proof.
  intros cs f s d -> E. pose proof (inv_run cs nothing_open inv_nothing) as Hi. set (s := fst (run nothing_open cs)) in *. clearbody s.
  pose proof (inv_step s (OpenDocument f) Hi) as Hi2. cbn [step] in *.
  destruct (find_file s f) as [x|] eqn:Ex; [|discriminate]. destruct (f_held x); [|discriminate].
  pose proof (find_file_in _ _ _ Ex) as [Hx Hf]. unfold open_document in *.
  destruct (lookup (mapping s) (f_address x)) as [e|] eqn:El.
  - destruct (find_doc s e) as [y|] eqn:Ey; [|discriminate]. cbn [fst snd] in *. injection E as ->. apply find_doc_in in Ey. destruct Ey as [Hy Hd].
    destruct (i_map s Hi y Hy) as (z & Hz & Hfz & Hlz). rewrite Hd in Hlz.
    assert (z = x) by (apply (nodup_map_inj _ f_address (files s)); [apply (i_addr s Hi)|assumption|assumption|exact (i_minj s Hi _ _ d Hlz El)]). subst z.
    set (s2 := {| files := files s; docs := map (with_handles d (fun n => n + 1)) (docs s); mapping := mapping s; next := next s |}) in *.
    destruct (find_doc s2 d) as [w|] eqn:Ew.
    + exists w. split; [reflexivity|]. apply find_doc_in in Ew. destruct Ew as [Hw Hwd]. subst s2. cbn [docs] in Hw.
      apply in_map_iff in Hw. destruct Hw as (v & <- & Hv). rewrite with_handles_file. rewrite with_handles_id in Hwd.
      assert (v = y) by (apply (nodup_map_inj _ d_id (docs s)); [apply (i_did s Hi)|assumption|assumption|congruence]). subst v. congruence.
    + exfalso. apply (find_doc_none _ _ Ew (with_handles d (fun n => n + 1) y)); [apply in_map, Hy|rewrite with_handles_id; exact Hd].
  - destruct (f_readable x); [|discriminate]. cbn [fst snd] in *. injection E as <-.
    exists {| d_id := next s; d_file := f_id x; d_handles := 1 |}. unfold find_doc. cbn [docs find d_id d_file]. rewrite N.eqb_refl. auto.
Qed.

(** A file that cannot be read spoils its address: once it was tried, every later file at the same address is refused with
    "Object has been already disposed", even a good one and whatever happened in between. *)
Theorem C63_address_lost_refuted : forall before between bad good a,
  (* a file at address [a] that cannot be read is tried *)
  let s1 := fst (run nothing_open before) in
  find_file s1 bad = Some {| f_id := bad; f_address := a; f_readable := false; f_held := true |} ->
  snd (step s1 (OpenDocument bad)) = AUnreadable ->
  (* later a good file is at that address *)
  let s2 := fst (run (fst (step s1 (OpenDocument bad))) between) in
  find_file s2 good = Some {| f_id := good; f_address := a; f_readable := true; f_held := true |} ->
  snd (step s2 (OpenDocument good)) = ADisposed.
Proof.
  intros before between bad good a s1 Hb Eb s2 Hg. pose proof (inv_run before nothing_open inv_nothing) as Hi. fold s1 in Hi. clearbody s1.
  assert (Hst : stale (fst (step s1 (OpenDocument bad))) a).
  { cbn [step] in *. rewrite Hb in *. cbn [f_held] in *. unfold open_document in *. cbn [f_address f_readable] in *.
    destruct (lookup (mapping s1) a) as [d|]; [destruct (find_doc s1 d); discriminate|]. cbn [fst]. exists (next s1). cbn [mapping].
    rewrite lookup_assign, N.eqb_refl. split; [reflexivity|]. unfold find_doc. cbn [docs].
    destruct (find _ (docs s1)) as [y|] eqn:E; [|reflexivity]. apply find_some in E. destruct E as [Hy E]. apply (i_dnext s1 Hi) in Hy. lia. }
  pose proof (stale_run between _ a (inv_step s1 (OpenDocument bad) Hi) Hst) as (d & Hl & Hd). fold s2 in Hl, Hd.
  cbn [step]. rewrite Hg. cbn [f_held]. unfold open_document. cbn [f_address]. rewrite Hl, Hd. reflexivity.
Qed.

(** Two documents, one opened twice, files closed before their documents, an address used again. *)
Definition history : list call :=
  [NewFile 7 true; OpenDocument 0; OpenDocument 0; NewFile 9 true; OpenDocument 2; CloseFile 0; CloseDocument 1; CloseDocument 1;
   NewFile 7 true; OpenDocument 4; CloseDocument 3; OpenDocument 2].
Example C63_case : only_readable history /\ allowed history /\ snd (run nothing_open history) =
  [AFile 0; ADocument 1; ADocument 1; AFile 2; ADocument 3; ADone; ADone; ADone; AFile 4; ADocument 5; ADone; ADocument 6].
Proof.
  split; [intros a H; unfold history in H; cbn [In] in H; intuition congruence|].
  split; [intros H; vm_compute in H; intuition congruence|]. vm_compute. reflexivity.
Qed.

Example C63_lost_case :
  snd (run nothing_open [NewFile 7 false; OpenDocument 0; CloseFile 0; NewFile 7 true; OpenDocument 2]) =
    [AFile 0; AUnreadable; ADone; AFile 2; ADisposed] /\ snd (expect_run fresh_world [NewFile 7 false; OpenDocument 0; CloseFile 0; NewFile 7 true; OpenDocument 1]) =
    [AFile 0; AUnreadable; ADone; AFile 1; ADocument 2].
Proof. split; vm_compute; reflexivity. Qed.

Print Assumptions C63_open_partial.
Print Assumptions C63_never_another_file.
Print Assumptions C63_address_lost_refuted.

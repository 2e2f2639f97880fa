(** C91: saving to a path writes that file and nothing else; what the file held before is gone as soon as the save starts. *)
From Coq Require Import List NArith ZArith Bool Lia String.
From Coq Require Import List.
From Verif.Model Require Import Base SMap Char Token Object Equality Parser Xref StartXref Header FileWrite Chain Merge Duplicates Update Save Resave SavePath.
From Verif.Spec Require Import SavePath.
From Verif.Proof Require Import Tac Containers SavePath.
From Verif.Props Require Import Update.
Import ListNotations.
Local Open Scope N_scope.

Section C91.
Variable can_write : path -> bool.
Variable licensed : bool.
Variable rest : bytes.
Variable flushed : nat.
Variable real : bool -> N -> N -> dbl.
Variable hash : value -> N.
Variable order : list (xentry * obj) -> list N.
Variable arrange : list ditem -> list ditem.
Variable rl : N -> N -> res Z.
Local Notation Save := (save can_write rest flushed real hash order arrange rl).
Local Notation SaveIncremental := (save_incremental can_write licensed rest).

(** Whether it succeeds or fails, a save leaves every other file as it was. *)
Theorem C91_other_files : forall d doc p,
  only_touches p d (snd (Save d doc p)) /\ only_touches p d (snd (SaveIncremental d doc p)).
Proof. intros d doc p. split; [apply save_other|apply incremental_other]. Qed.

(** Saved elsewhere, the open document reads every object as before. *)
Theorem C91_source_kept : forall d doc p n g, p <> o_path doc ->
  look_up rl (snd (Save d doc p)) doc n g = look_up rl d doc n g /\
  look_up rl (snd (SaveIncremental d doc p)) doc n g = look_up rl d doc n g.
Proof.
  intros d doc p n g Hp. unfold look_up, live.
  rewrite (save_other can_write rest flushed real hash order arrange rl d doc p (o_path doc)) by congruence.
  rewrite (incremental_other can_write licensed rest d doc p (o_path doc)) by congruence. split; reflexivity.
Qed.

(** A successful save elsewhere leaves exactly the bytes of the saved document (C29 to C36 say what they are), whatever and however much
    the file held before. *)
Theorem C91_saved_elsewhere : forall d doc p file, p <> o_path doc -> d (o_path doc) = Some file ->
  (fst (Save d doc p) = Ok tt -> exists c out, same_sections (as_read rl file) (o_sections doc) c /\
     save_file real hash (content_of c) order arrange (o_version doc) (memory_chain c) = Ok out /\ snd (Save d doc p) p = Some out) /\
  (fst (SaveIncremental d doc p) = Ok tt -> exists c out, same_sections as_known (o_sections doc) c /\
     write_incremental file c = Ok out /\ snd (SaveIncremental d doc p) p = Some out) /\
  (forall c out, can_write p = true -> fill rl file (o_sections doc) = Ok c ->
     save_file real hash (content_of c) order arrange (o_version doc) (memory_chain c) = Ok out -> fst (Save d doc p) = Ok tt) /\
  (forall out, can_write p = true -> licensed = true -> write_incremental file (known (o_sections doc)) = Ok out ->
     fst (SaveIncremental d doc p) = Ok tt).
Proof.
  intros d doc p file Hp Hd. assert (Hl : live d doc = file) by (unfold live; rewrite Hd; reflexivity). split; [|split; [|split]].
  - intros H. destruct (save_elsewhere_inv can_write rest flushed real hash order arrange rl d doc p Hp H) as (c & out & H1 & H2 & H3).
    rewrite Hl in H1. exists c, out. split; [exact (fill_spec rl file _ c H1)|]. split; assumption.
  - intros H. destruct (incremental_elsewhere_inv can_write licensed rest d doc p Hp H) as (out & H1 & H2).
    rewrite Hl in H1. exists (known (o_sections doc)), out. split; [apply known_spec|]. split; assumption.
  - intros c out Hw Hc Ho. rewrite <- Hl in Hc. exact (proj1 (save_elsewhere can_write rest flushed real hash order arrange rl d doc p Hw Hp c out Hc Ho)).
  - intros out Hw Hx Ho. unfold save_incremental, create. rewrite Hw, Hx. rewrite live_put by exact Hp. rewrite Hl, Ho. reflexivity.
Qed.

(** A file that cannot be opened for writing is not touched. *)
Theorem C91_not_writable : forall d doc p q, can_write p = false ->
  (fst (Save d doc p) = Throw EGeneral /\ snd (Save d doc p) q = d q) /\
  (fst (SaveIncremental d doc p) = Throw EGeneral /\ snd (SaveIncremental d doc p) q = d q).
Proof. intros d doc p q H. unfold save, save_incremental, create. rewrite H. repeat split. Qed.

(** A save that fails later has already emptied the file: what it held is replaced by nothing, by a header, or by the source and a line
    feed, each followed by whatever was written until then. *)
Theorem C91_failed_save_refuted : forall d doc p, can_write p = true ->
  (fst (Save d doc p) <> Ok tt -> exists more, snd (Save d doc p) p = Some (write_header (o_version doc) ++ more)) /\
  (fst (SaveIncremental d doc p) <> Ok tt -> p <> o_path doc ->
     snd (SaveIncremental d doc p) p = Some [] \/ exists more, snd (SaveIncremental d doc p) p = Some (live d doc ++ [10] ++ more)).
Proof.
  intros d doc p Hw. unfold save, save_incremental, create. rewrite Hw. split.
  - destruct (fill rl _ _) as [c| | |]; cbn [fst snd].
    1: destruct (save_file _ _ _ _ _ _ _); cbn [fst snd]; intros H; [congruence| | |]; rewrite put_same; eexists; reflexivity.
    all: intros _; rewrite put_same; exists []; rewrite app_nil_r; reflexivity.
  - intros H Hp. rewrite !live_put in * by exact Hp. revert H. destruct licensed; cbn [fst snd].
    + destruct (write_incremental _ _); cbn [fst snd]; intros H; [congruence| | |]; rewrite put_same; right; eexists; reflexivity.
    + intros _. left. apply put_same.
Qed.

(** Saving only the changes onto the file the document was opened from: what is written is the same whatever that file held, so that
    nothing of it is left. *)
Theorem C91_update_in_place_refuted : forall d1 d2 doc,
  fst (SaveIncremental d1 doc (o_path doc)) = fst (SaveIncremental d2 doc (o_path doc)) /\
  (can_write (o_path doc) = true ->
   snd (SaveIncremental d1 doc (o_path doc)) (o_path doc) = snd (SaveIncremental d2 doc (o_path doc)) (o_path doc)).
Proof.
  intros d1 d2 doc. unfold save_incremental, create. destruct (can_write (o_path doc)); [|split; [reflexivity|discriminate]].
  unfold live. rewrite !put_same. destruct licensed; cbn [fst snd].
  - destruct (write_incremental _ _); cbn [fst snd]; rewrite !put_same; split; reflexivity.
  - rewrite !put_same. split; reflexivity.
Qed.

(** Saving the whole document onto the file it was opened from: if one object has not been read yet, the save fails and the file is
    left with nothing but the header. *)
Theorem C91_save_in_place_refuted : forall d doc x, can_write (o_path doc) = true -> unread_object doc x ->
  fst (Save d doc (o_path doc)) <> Ok tt /\ snd (Save d doc (o_path doc)) (o_path doc) = Some (write_header (o_version doc)).
Proof. intros d doc x Hw Hx. exact (save_in_place can_write licensed rest flushed real hash order arrange rl d doc x Hw Hx). Qed.

(** If every object has been read, saving in place writes what saving anywhere else writes. *)
Theorem C91_save_in_place_partial : forall d d' doc p, can_write (o_path doc) = true -> can_write p = true -> all_read doc ->
  fst (Save d doc (o_path doc)) = fst (Save d' doc p) /\ snd (Save d doc (o_path doc)) (o_path doc) = snd (Save d' doc p) p.
Proof. intros d d' doc p Hw Hw' Hr. exact (save_all_read can_write rest flushed real hash order arrange rl d d' doc _ p Hw Hw' Hr). Qed.
End C91.

(** Without a licence, saving the changes empties the file and fails; done in place, no object that was not read before can be read. *)
Theorem C91_unlicensed_refuted : forall can_write rest rl d doc p, can_write p = true ->
  fst (save_incremental can_write false rest d doc p) = Throw EGeneral /\
  snd (save_incremental can_write false rest d doc p) p = Some [] /\
  (p = o_path doc -> forall s r x offset u, o_sections doc = s :: r -> lazy_in (xnum (z_entry x)) (z_items s) = Some x -> z_held x = None ->
     xdata (z_entry x) = KUsed offset u -> forall o,
     look_up rl (snd (save_incremental can_write false rest d doc p)) doc (xnum (z_entry x)) (xgen (z_entry x)) <> Ok o).
Proof.
  intros can_write rest rl d doc p Hw. unfold save_incremental, create. rewrite Hw. cbn [fst snd]. rewrite put_same.
  split; [reflexivity|]. split; [reflexivity|]. intros -> s r x offset u Es Hf Hn Hd o H.
  unfold look_up, live in H. rewrite put_same, Es in H. cbn [read_object] in H. rewrite Hf, N.eqb_refl in H.
  apply rbind_ok in H. destruct H as (y & H & _). unfold fill_item in H. rewrite Hn, Hd in H.
  destruct (offset =? -1)%Z; [discriminate H|]. apply rbind_ok in H. destruct H as ([[a b] c] & H & _).
  unfold load_entry in H. rewrite Hd, skipn_nil in H. apply rbind_ok in H. destruct H as (z & H & _). exact (read_nothing rl z H).
Qed.

(** *** The document of C36 with object 2 changed, on a disk with another file *)
Definition C91_path : path := str "a.pdf".
Definition C91_other : path := str "b.pdf".
Definition C91_disk : disk := put (put (fun _ => None) C91_path C36_file) C91_other (str "something else").
Definition lazily (changed : option obj) (e : xentry) : lazy_entry :=
  {| z_entry := e; z_held := changed; z_dirty := match changed with Some _ => true | None => false end |}.
Definition C91_document : open_document :=
  {| o_path := C91_path; o_version := PDF14;
     o_sections := [{| z_offset := offset_of C36_file;
                       z_items := [lazily None (fst C36_free); lazily None (C36_used 1 15); lazily (Some (OInt 6)) (C36_used 2 49)];
                       z_trailer := set_size C36_trailer 3 |}] |}.
Definition C91_save := save (fun _ => true) [] 0 (fun _ _ _ => {| dm := 0; de := 0 |}) (fun _ => 0) (fun l => map (fun p => xnum (fst p)) (tl l)) (fun l => l) C36_rl.
Definition C91_update := save_incremental (fun _ => true) true [].
Definition at_path (d : disk) (p : path) (n : N) : res obj := match d p with Some b => lookup b n | None => Throw EGeneral end.

(** elsewhere both saves work; in place both destroy the document *)
Example C91_case : C91_path <> C91_other /\ unread_object C91_document (lazily None (C36_used 1 15)) /\
  look_up C36_rl C91_disk C91_document 1 0 = Ok C36_catalog /\
  fst (C91_update C91_disk C91_document C91_other) = Ok tt /\
  at_path (snd (C91_update C91_disk C91_document C91_other)) C91_other 1 = Ok C36_catalog /\
  at_path (snd (C91_update C91_disk C91_document C91_other)) C91_other 2 = Ok (OInt 6) /\
  fst (C91_update C91_disk C91_document C91_path) = Ok tt /\
  at_path C91_disk C91_path 1 = Ok C36_catalog /\
  (forall o, at_path (snd (C91_update C91_disk C91_document C91_path)) C91_path 1 <> Ok o) /\
  fst (C91_save C91_disk C91_document C91_other) = Ok tt /\
  at_path (snd (C91_save C91_disk C91_document C91_other)) C91_other 1 = Ok C36_catalog.
Proof.
  split; [discriminate|]. split.
  { split; [eexists; split; [left; reflexivity|right; left; reflexivity]|]. split; [reflexivity|]. exists 15%Z, true. split; [reflexivity|lia]. }
  split; [vm_compute; reflexivity|]. split; [vm_compute; reflexivity|]. split; [vm_compute; reflexivity|]. split; [vm_compute; reflexivity|].
  split; [vm_compute; reflexivity|]. split; [vm_compute; reflexivity|].
  split; [intros o H; vm_compute in H; discriminate H|]. split; vm_compute; reflexivity.
Qed.
(** the same document with every object read, and the save in place *)
Definition C91_read_document : open_document :=
  {| o_path := C91_path; o_version := PDF14;
     o_sections := [{| z_offset := offset_of C36_file;
                       z_items := [lazily None (fst C36_free); lazily (Some C36_catalog) (C36_used 1 15); lazily (Some (OInt 6)) (C36_used 2 49)];
                       z_trailer := set_size C36_trailer 3 |}] |}.
Example C91_read_case : all_read C91_read_document /\ fst (C91_save C91_disk C91_read_document C91_path) = Ok tt /\
  at_path (snd (C91_save C91_disk C91_read_document C91_path)) C91_path 1 = Ok C36_catalog.
Proof.
  split; [|split; vm_compute; reflexivity].
  intros s x [<-|[]] [<-|[<-|[<-|[]]]]; [right; exists 0; reflexivity|left; discriminate|left; discriminate].
Qed.

Print Assumptions C91_other_files.
Print Assumptions C91_source_kept.
Print Assumptions C91_saved_elsewhere.
Print Assumptions C91_not_writable.
Print Assumptions C91_failed_save_refuted.
Print Assumptions C91_update_in_place_refuted.
Print Assumptions C91_save_in_place_refuted.
Print Assumptions C91_save_in_place_partial.
Print Assumptions C91_unlicensed_refuted.

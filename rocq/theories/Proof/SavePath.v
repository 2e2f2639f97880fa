(** Lemmas for saving to a path. *)
From Coq Require Import List NArith ZArith Bool Lia.
From Verif.Model Require Import Base Char Token Object Parser Xref Header FileWrite Chain Merge Update Save Resave SavePath.
From Verif.Spec Require Import SavePath.
From Verif.Proof Require Import Tac Containers.
Import ListNotations.
Local Open Scope N_scope.

Lemma put_same : forall d p b, put d p b p = Some b.
Proof. intros d p b. unfold put. rewrite (proj2 (beq_true p p) eq_refl). reflexivity. Qed.
Lemma put_other : forall d p b q, q <> p -> put d p b q = d q.
Proof.
  intros d p b q H. unfold put. destruct (beq p q) eqn:E; [|reflexivity]. apply beq_true in E. congruence.
Qed.

Lemma read_nothing : forall rl o, read_indirect_object parser_dictionary rl [] <> Ok o.
Proof. intros rl o H. vm_compute in H. discriminate H. Qed.

Section Save.
Variable can_write : path -> bool.
Variable licensed : bool.
Variable rest : bytes.
Variable flushed : nat.
Variable real : bool -> N -> N -> Equality.dbl.
Variable hash : Equality.value -> N.
Variable order : list (xentry * obj) -> list N.
Variable arrange : list Duplicates.ditem -> list Duplicates.ditem.
Variable rl : N -> N -> res Z.
Let S := save can_write rest flushed real hash order arrange rl.
Let SI := save_incremental can_write licensed rest.

Lemma save_other : forall d doc p, only_touches p d (snd (S d doc p)).
Proof.
  intros d doc p q Hq. unfold S, save, create. destruct (can_write p); [|reflexivity].
  destruct (fill rl _ _); cbn [snd]; try (rewrite !put_other by exact Hq; reflexivity).
  destruct (save_file _ _ _ _ _ _ _); cbn [snd]; rewrite !put_other by exact Hq; reflexivity.
Qed.
Lemma incremental_other : forall d doc p, only_touches p d (snd (SI d doc p)).
Proof.
  intros d doc p q Hq. unfold SI, save_incremental, create. destruct (can_write p); [|reflexivity].
  destruct licensed; [|cbn [snd]; rewrite put_other by exact Hq; reflexivity].
  destruct (write_incremental _ _); cbn [snd]; rewrite !put_other by exact Hq; reflexivity.
Qed.
Lemma live_put : forall d p b doc, p <> o_path doc -> live (put d p b) doc = live d doc.
Proof. intros d p b doc H. unfold live. rewrite put_other by congruence. reflexivity. Qed.

(** saving to a path that is not that of the document *)
Lemma save_elsewhere : forall d doc p, can_write p = true -> p <> o_path doc ->
  forall c out, fill rl (live d doc) (o_sections doc) = Ok c ->
  save_file real hash (content_of c) order arrange (o_version doc) (memory_chain c) = Ok out ->
  fst (S d doc p) = Ok tt /\ snd (S d doc p) p = Some out.
Proof.
  intros d doc p Hw Hp c out Hc Ho. unfold S, save, create. rewrite Hw. rewrite !live_put by exact Hp. rewrite Hc, Ho.
  cbn [fst snd]. rewrite put_same. split; reflexivity.
Qed.
Lemma save_elsewhere_inv : forall d doc p, p <> o_path doc -> fst (S d doc p) = Ok tt ->
  exists c out, fill rl (live d doc) (o_sections doc) = Ok c /\
    save_file real hash (content_of c) order arrange (o_version doc) (memory_chain c) = Ok out /\ snd (S d doc p) p = Some out.
Proof.
  intros d doc p Hp. unfold S, save, create. destruct (can_write p); [|discriminate]. rewrite !live_put by exact Hp.
  destruct (fill rl (live d doc) (o_sections doc)) as [c| | |]; cbn [fst]; try discriminate.
  destruct (save_file _ _ _ _ _ _ _) as [out| | |] eqn:E; cbn [fst snd]; try discriminate.
  intros _. exists c, out. rewrite put_same. auto.
Qed.
Lemma incremental_elsewhere_inv : forall d doc p, p <> o_path doc -> fst (SI d doc p) = Ok tt ->
  exists out, write_incremental (live d doc) (known (o_sections doc)) = Ok out /\ snd (SI d doc p) p = Some out.
Proof.
  intros d doc p Hp. unfold SI, save_incremental, create. destruct (can_write p); [|discriminate]. rewrite !live_put by exact Hp.
  destruct licensed; [|discriminate]. destruct (write_incremental _ _) as [out| | |]; cbn [fst snd]; try discriminate.
  intros _. exists out. rewrite put_same. auto.
Qed.

Lemma fill_items_unread : forall file l x, In x l -> (forall y, fill_item rl file x <> Ok y) -> forall r, fill_items rl file l <> Ok r.
Proof.
  intros file l x. induction l as [|y l IH]; intros Hin Hx r; [destruct Hin|]. cbn [fill_items]. intros H.
  apply rbind_ok in H. destruct H as (a & Ha & H). apply rbind_ok in H. destruct H as (b & Hb & _).
  destruct Hin as [<-|Hin]; [exact (Hx a Ha)|exact (IH Hin Hx b Hb)].
Qed.
Lemma fill_unread : forall file c s x, In s c -> In x (z_items s) -> (forall y, fill_item rl file x <> Ok y) -> forall r, fill rl file c <> Ok r.
Proof.
  intros file c s x. induction c as [|t c IH]; intros Hs Hx Hn r; [destruct Hs|]. cbn [fill]. intros H.
  apply rbind_ok in H. destruct H as (a & Ha & H). apply rbind_ok in H. destruct H as (b & Hb & _).
  destruct Hs as [<-|Hs]; [exact (fill_items_unread file _ x Hx Hn a Ha)|exact (IH Hs Hx Hn b Hb)].
Qed.
Lemma fill_item_gone : forall file x offset u, (List.length file <= 15)%nat -> z_held x = None -> xdata (z_entry x) = KUsed offset u ->
  (15 <= offset)%Z -> forall y, fill_item rl file x <> Ok y.
Proof.
  intros file x offset u Hl Hn Hd Ho y H. unfold fill_item in H. rewrite Hn, Hd in H.
  destruct (offset =? -1)%Z; [discriminate H|]. apply rbind_ok in H. destruct H as ([[a b] o] & H & _).
  unfold load_entry in H. rewrite Hd in H. rewrite skipn_all2 in H by lia.
  apply rbind_ok in H. destruct H as (z & H & _). exact (read_nothing rl z H).
Qed.
Lemma header_length : forall v, List.length (write_header v) = 15%nat.
Proof. intros []; reflexivity. Qed.

Lemma fill_items_spec : forall file l r, fill_items rl file l = Ok r -> Forall2 (as_read rl file) l r.
Proof.
  intros file l. induction l as [|x l IH]; intros r H; cbn [fill_items] in H.
  - injection H as <-. constructor.
  - apply rbind_ok in H. destruct H as (y & Hy & H). apply rbind_ok in H. destruct H as (t & Ht & H). injection H as <-.
    constructor; [|exact (IH t Ht)]. clear - Hy. unfold fill_item in Hy. unfold as_read, as_known.
    destruct (z_held x) as [o|] eqn:E.
    + injection Hy as <-. cbn. repeat split; congruence.
    + destruct (xdata (z_entry x)) as [n|offset u|a b] eqn:D.
      * injection Hy as <-. cbn. repeat split; congruence.
      * destruct (offset =? -1)%Z; [discriminate Hy|]. apply rbind_ok in Hy. destruct Hy as ([[n g] o] & Ho & Hy). injection Hy as <-.
        cbn. repeat split; try congruence. intros _ ? ? _. exists n, g. exact Ho.
      * discriminate Hy.
Qed.
Lemma fill_spec : forall file c r, fill rl file c = Ok r -> same_sections (as_read rl file) c r.
Proof.
  intros file c. induction c as [|s c IH]; intros r H; cbn [fill] in H.
  - injection H as <-. constructor.
  - apply rbind_ok in H. destruct H as (l & Hl & H). apply rbind_ok in H. destruct H as (t & Ht & H). injection H as <-.
    constructor; [|exact (IH t Ht)]. cbn. repeat split. exact (fill_items_spec file _ l Hl).
Qed.
Lemma known_spec : forall c, same_sections as_known c (known c).
Proof.
  intros c. unfold known. induction c as [|s c IH]; cbn [map]; constructor; [|exact IH]. cbn. repeat split.
  induction (z_items s) as [|x l IHl]; cbn [map]; constructor; [|exact IHl]. unfold as_known, as_held. cbn. repeat split. intros o ->. reflexivity.
Qed.

Lemma save_in_place : forall d doc x, can_write (o_path doc) = true -> unread_object doc x ->
  fst (S d doc (o_path doc)) <> Ok tt /\ snd (S d doc (o_path doc)) (o_path doc) = Some (write_header (o_version doc)).
Proof.
  intros d doc x Hw ((s & Hs & Hx) & Hn & offset & u & Hd & Ho). unfold S, save, create. rewrite Hw.
  destruct (fill rl _ _) as [c| | |] eqn:E; cbn [fst snd]; try (rewrite put_same; split; [discriminate|reflexivity]).
  exfalso. refine (fill_unread _ _ s x Hs Hx _ c E). apply (fill_item_gone _ x offset u); auto.
  unfold live. rewrite put_same. rewrite firstn_length, header_length. lia.
Qed.

Lemma fill_items_read : forall f1 f2 l, (forall x, In x l -> z_held x <> None \/ exists n, xdata (z_entry x) = KFree n) ->
  fill_items rl f1 l = fill_items rl f2 l.
Proof.
  intros f1 f2 l. induction l as [|x l IH]; intros H; [reflexivity|]. cbn [fill_items].
  rewrite (IH (fun y Hy => H y (or_intror Hy))).
  replace (fill_item rl f1 x) with (fill_item rl f2 x); [reflexivity|]. unfold fill_item.
  destruct (H x (or_introl eq_refl)) as [Hh|[n Hh]]; [destruct (z_held x); [reflexivity|congruence]|rewrite Hh; reflexivity].
Qed.
Lemma fill_read : forall f1 f2 c, (forall s x, In s c -> In x (z_items s) -> z_held x <> None \/ exists n, xdata (z_entry x) = KFree n) ->
  fill rl f1 c = fill rl f2 c.
Proof.
  intros f1 f2 c. induction c as [|s c IH]; intros H; [reflexivity|]. cbn [fill].
  rewrite (fill_items_read f1 f2 (z_items s)) by (intros x Hx; exact (H s x (or_introl eq_refl) Hx)).
  rewrite IH by (intros t x Ht Hx; exact (H t x (or_intror Ht) Hx)). reflexivity.
Qed.
Lemma save_all_read : forall d d' doc p p', can_write p = true -> can_write p' = true -> all_read doc ->
  fst (S d doc p) = fst (S d' doc p') /\ snd (S d doc p) p = snd (S d' doc p') p'.
Proof.
  intros d d' doc p p' Hw Hw' Hr. unfold S, save, create. rewrite Hw, Hw'.
  match goal with |- context [fill rl ?a ?c] => rewrite (fill_read a [] c Hr) end.
  match goal with |- context [fill rl ?a ?c] => lazymatch a with [] => fail | _ => rewrite (fill_read a [] c Hr) end end.
  destruct (fill rl [] (o_sections doc)) as [c| | |]; cbn [fst snd]; try (rewrite !put_same; split; reflexivity).
  destruct (save_file _ _ _ _ _ _ _); cbn [fst snd]; rewrite !put_same; split; reflexivity.
Qed.
End Save.

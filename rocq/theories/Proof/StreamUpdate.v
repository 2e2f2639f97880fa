(** Lemmas for Props/StreamUpdate.v: a table has no entries of objects in object streams. *)
From Coq Require Import List NArith ZArith Bool Lia String.
From Verif.Model Require Import Base SMap Object Token Parser Xref FileWrite Chain.
From Verif.Proof Require Import Tac Xref FileWrite.
Import ListNotations.
Local Open Scope N_scope.

Definition plain (e : xentry) : Prop := match xdata e with KComp _ _ => False | _ => True end.
Lemma table_add_plain : forall e t t', table_add e t = Ok t' -> Forall plain t -> Forall plain t'.
Proof.
  intros e t t' H Ht. unfold table_add in H. destruct (xdata e) eqn:Ed; try discriminate; apply Ok_inj in H; subst t'; apply Forall_forall; intros x Hx; destruct (xadd_In _ _ _ Hx) as [->|Hx'];
    try (unfold plain; rewrite Ed; exact I); rewrite Forall_forall in Ht; exact (Ht x Hx').
Qed.
Lemma rows_plain : forall d fuel base i size s t t' r, read_rows d fuel base i size s t = Ok (t', r) -> Forall plain t -> Forall plain t'.
Proof.
  intros d. induction fuel as [|f IH]; intros base i size s t t' r H Ht; cbn [read_rows] in H; destruct (size <=? i).
  - apply Ok_inj in H. apply pair_equal_spec in H. destruct H as [<- _]. exact Ht.
  - discriminate.
  - apply Ok_inj in H. apply pair_equal_spec in H. destruct H as [<- _]. exact Ht.
  - apply rbind_ok in H. destruct H as (num & _ & H). apply rbind_ok in H. destruct H as ([e r1] & _ & H). apply rbind_ok in H. destruct H as (t1 & E1 & H).
    eapply IH; [exact H|]. eapply table_add_plain; eauto.
Qed.
Lemma subsections_plain : forall d fuel s t t' r, read_subsections d fuel s t = Ok (t', r) -> Forall plain t -> Forall plain t'.
Proof.
  intros d. induction fuel as [|f IH]; intros s t t' r H Ht; cbn [read_subsections] in H; [discriminate|]. apply rbind_ok in H. destruct H as (ty & _ & H).
  destruct (ttype_eqb ty TyTrailer).
  - apply Ok_inj in H. apply pair_equal_spec in H. destruct H as [<- _]. exact Ht.
  - apply rbind_ok in H. destruct H as ([bv r1] & _ & H). apply rbind_ok in H. destruct H as ([sv r2] & _ & H). apply rbind_ok in H. destruct H as (base & _ & H).
    apply rbind_ok in H. destruct H as (size & _ & H). apply rbind_ok in H. destruct H as ([t1 r3] & E1 & H). eapply IH; [exact H|]. eapply rows_plain; eauto.
Qed.
Lemma section_plain : forall d decode file c off c' sec, read_section d decode file c off = Ok (c', sec) -> s_kind sec = STable -> Forall plain (s_entries sec).
Proof.
  intros d decode file c off c' sec H Hk. unfold read_section in H. apply rbind_ok in H. destruct H as (ty & _ & H). destruct (ttype_eqb ty TyXref).
  - apply rbind_ok in H. destruct H as ([[t o] rr] & E & H). unfold read_xref_table in E. apply rbind_ok in E. destruct E as ([x0 r1] & _ & E). apply rbind_ok in E. destruct E as ([t0 r2] & E0 & E).
    apply rbind_ok in E. destruct E as ([x1 r3] & _ & E). apply rbind_ok in E. destruct E as ([o1 r4] & _ & E).
    assert (t0 = t) by (destruct o1; try discriminate; apply Ok_inj in E; congruence). subst t0.
    destruct o as [| | | | | | | | |m|]; try discriminate. apply Ok_inj in H. apply pair_equal_spec in H. destruct H as [_ <-]. cbn [s_entries]. eapply subsections_plain; [exact E0|constructor].
  - apply rbind_ok in H. destruct H as ([[[n g] o] rr] & _ & H). destruct o as [| | | | | | | | | |m data]; try discriminate. unfold parse_stream_section in H.
    apply rbind_ok in H. destruct H as (w & _ & H). apply rbind_ok in H. destruct H as (size & _ & H). apply rbind_ok in H. destruct H as (index & _ & H). apply rbind_ok in H. destruct H as (body & _ & H).
    apply rbind_ok in H. destruct H as (entries & _ & H). exfalso. destruct (names_self n g entries).
    + apply Ok_inj in H. apply pair_equal_spec in H. destruct H as [_ <-]. discriminate Hk.
    + destruct (chain_entry n g _) as [e|]; [|discriminate]. destruct (xdata e); try discriminate; apply Ok_inj in H; apply pair_equal_spec in H; destruct H as [_ <-]; discriminate Hk.
Qed.

(** Reading the body of a stream that was encoded by any list of the filters described in Spec/StreamBody.v. *)
From Coq Require Import List NArith ZArith Bool Lia String.
From Coq Require Import List.
From Verif.Model Require Import Base SMap Object Filters Encryption StreamBody.
From Verif.Spec Require Import Strings Arith Filters StreamBody.
From Verif.Proof Require Import Tac StreamBody.
From Verif.Props Require Import Filters.
Import ListNotations.
Local Open Scope N_scope.

Section P.
Variables inflate : bytes -> res bytes.
Variables dct_decode jpx_decode : dict -> bytes -> res bytes.

Lemma parameter_read : forall k p dflt v, parameter k p dflt v -> integer_or k p dflt = Ok v.
Proof.
  intros k p dflt v [H|[H ->]]; unfold integer_or, find_integer.
  - rewrite (contains_some _ _ _ H), H. reflexivity.
  - rewrite (contains_none _ _ H). reflexivity.
Qed.

Lemma encoded_decodes : forall n p body data, encoded_by inflate n p body data ->
  beq n (str "Crypt") = false /\ exists f, filter_by_name n = Ok f /\ filter_decode inflate dct_decode jpx_decode f p data = Ok body.
Proof.
  intros n p body data H. destruct H.
  - split; [reflexivity|]. exists FFlate. split; [reflexivity|]. cbn [filter_decode]. apply flate_plain; assumption.
  - split; [reflexivity|]. exists FFlate. split; [reflexivity|]. cbn [filter_decode]. unfold flate_decode.
    repeat match goal with H : parameter _ _ _ _ |- _ => apply parameter_read in H end.
    match goal with H : inflate data = _ |- _ => rewrite H end. cbn [rbind].
    match goal with H : integer_or (str "Predictor") p _ = _ |- _ => rewrite H end. cbn [rbind].
    match goal with |- context [(?x =? 1)%Z] => destruct (x =? 1)%Z eqn:E1; [lia|] end.
    match goal with H : integer_or (str "Colors") p _ = _ |- _ => rewrite H end. cbn [rbind].
    match goal with H : integer_or (str "BitsPerComponent") p _ = _ |- _ => rewrite H end. cbn [rbind].
    match goal with H : integer_or (str "Columns") p _ = _ |- _ => rewrite H end. cbn [rbind].
    match goal with H : integer_or (str "EarlyChange") p _ = _ |- _ => rewrite H end. cbn [rbind].
    apply C10_png_predictor_partial; assumption.
  - split; [reflexivity|]. exists FAscii85. split; [reflexivity|]. cbn [filter_decode].
    apply C08_ascii85_decodes_wrapping; [assumption|]. rewrite !app_length. cbn [List.length]. lia.
  - split; [reflexivity|]. exists FAsciiHex. split; [reflexivity|]. cbn [filter_decode].
    apply C09_asciihex_partial; [assumption|assumption|]. rewrite !app_length. cbn [List.length]. lia.
Qed.

Lemma layers_no_crypt : forall l body data, layers inflate l body data -> ~ In (str "Crypt") (map fst l).
Proof.
  intros l body data H. induction H as [|n p l body inner data He Hl IH]; [intros []|]. cbn [map fst]. intros [E|Hin]; [|exact (IH Hin)].
  destruct (encoded_decodes _ _ _ _ He) as [Hc _]. rewrite E in Hc. discriminate.
Qed.

(** the parameters of the filters from position [i] on *)
Definition given (ps : option (list obj)) (i : nat) (l : list (bytes * dict)) : Prop :=
  match ps with
  | None => Forall (fun x => snd x = []) l
  | Some os => Forall2 as_parameter (map snd l) (skipn i os)
  end.

Lemma skipn_head : forall (A : Type) i (os : list A) o r, skipn i os = o :: r -> nth_error os i = Some o /\ skipn (S i) os = r.
Proof.
  intros A i. induction i as [|i IH]; intros os o r H; destruct os as [|a os]; try discriminate.
  - injection H as -> ->. split; reflexivity.
  - cbn [skipn] in H. apply IH in H. exact H.
Qed.

Lemma layers_decode : forall l body data, layers inflate l body data -> forall ps i, given ps i l ->
  decode_all inflate dct_decode jpx_decode ps i (map fst l) data = Ok body.
Proof.
  intros l body data H. induction H as [b|n p l body inner data He Hl IH]; intros ps i Hg; [reflexivity|].
  destruct (encoded_decodes _ _ _ _ He) as (Hc & f & Hf & Hd). cbn [map fst decode_all]. rewrite Hc, Hf. cbn [rbind].
  destruct ps as [os|]; cbn [given] in Hg.
  - cbn [map snd] in Hg. inversion Hg as [|? o ? r Hp Hr E1 E2]; subst. symmetry in E2. apply skipn_head in E2. destruct E2 as [En Es].
    rewrite En. destruct Hp as [->|[-> ->]]; rewrite Hd; cbn [rbind]; apply IH; cbn [given]; rewrite Es; exact Hr.
  - inversion Hg as [|? ? Hp Hr]; subst. cbn [snd] in Hp. subst p. rewrite Hd. cbn [rbind]. apply IH. exact Hr.
Qed.

Variable decrypt : option bytes -> bytes -> res bytes.
Variable is_encrypted : bool.

Lemma header_list : forall d l, header_filters d l -> filter_list d (map fst l).
Proof.
  intros d l H. destruct H as [d [H|H]|d n p H Hp|d ns H Hp|d l os H Hp Hf].
  - apply fl_none, H.
  - apply fl_null, H.
  - apply fl_name, H.
  - rewrite map_map. cbn [fst]. rewrite map_id. apply fl_array, H.
  - apply fl_array. rewrite map_map. exact H.
Qed.

Lemma body_reads : forall d l ex raw data body, header_filters d l -> layers inflate l body data ->
  (if ex || negb is_encrypted then Ok raw else decrypt None raw) = Ok data ->
  get_body inflate dct_decode jpx_decode decrypt is_encrypted (loaded d ex raw) = Ok body.
Proof.
  intros d l ex raw data body Hh Hl Hr.
  pose proof (decrypted_plain decrypt is_encrypted d (map fst l) ex raw (header_list _ _ Hh) (layers_no_crypt _ _ _ Hl)) as Hd.
  rewrite Hr in Hd. unfold get_body. set (s := loaded d ex raw) in *. change (decoded s) with (@None bytes). change (header s) with d. clearbody s.
  destruct Hh as [d [H|H]|d n p H Hp|d ns H Hp|d l os H Hp Hf].
  - rewrite (contains_none _ _ H). cbn [negb]. rewrite Hd. inversion Hl; subst. reflexivity.
  - rewrite (contains_some _ _ _ H). cbn [negb]. unfold find_obj. rewrite H. cbn [rbind]. rewrite Hd. inversion Hl; subst. reflexivity.
  - rewrite (contains_some _ _ _ H). cbn [negb]. unfold find_obj. rewrite H. cbn [rbind].
    inversion Hl as [|? ? ? ? inner ? He Hl2]; subst. inversion Hl2; subst. destruct (encoded_decodes _ _ _ _ He) as (Hc & f & Hf & Hde).
    rewrite Hc, Hf. cbn [rbind]. destruct Hp as [Hp|[Hp ->]].
    + rewrite (contains_some _ _ _ Hp). unfold find_dict. rewrite Hp. cbn [rbind]. rewrite Hd. cbn [rbind]. exact Hde.
    + rewrite (contains_none _ _ Hp). cbn [rbind]. rewrite Hd. cbn [rbind]. exact Hde.
  - rewrite (contains_some _ _ _ H). cbn [negb]. unfold find_obj. rewrite H. cbn [rbind]. rewrite map_names.
    rewrite (contains_none _ _ Hp). cbn [rbind]. rewrite Hd. cbn [rbind].
    pose proof (layers_decode _ _ _ Hl None 0%nat) as X. rewrite map_map in X. cbn [fst] in X. rewrite map_id in X. apply X.
    cbn [given]. apply Forall_map. apply Forall_forall. reflexivity.
  - rewrite (contains_some _ _ _ H). cbn [negb]. unfold find_obj. rewrite H. cbn [rbind].
    rewrite <- (map_map fst OName), map_names. rewrite (contains_some _ _ _ Hp). unfold find_array. rewrite Hp. cbn [rbind].
    rewrite Hd. cbn [rbind]. apply (layers_decode _ _ _ Hl). cbn [given skipn]. exact Hf.
Qed.
End P.

(** Stream objects: reading standard text, and the text the writer produces. *)
From Coq Require Import List NArith ZArith Bool Lia String Ascii Sorted.
From Verif.Model Require Import Base Char Numbers SMap Object Token Parser.
From Verif.Spec Require Import Strings Grammar.
From Verif.Proof Require Import Tac Numbers Strings SMap Token Parser Writer.
Import ListNotations.
Local Open Scope N_scope.

Lemma collect_facts : forall es m, keys_bytes es -> dict_content es m -> sm_sorted m /\ sm_keys_ok m.
Proof.
  intros es m He Hc. rewrite <- (dict_content_collect es m He Hc).
  destruct (collect_spec es [] (SSorted_nil _) (Forall_nil _) He) as (I1 & I2 & _). auto.
Qed.

Lemma str_bytes : forall s, all_bytes (str s).
Proof. induction s as [|a s IH]; [constructor|]. constructor; [unfold is_byte; apply N_ascii_bounded|exact IH]. Qed.

Lemma parse_obj_dict : forall d rl f s r0, read_token_skip d s = Ok ((TyDictBegin, []), r0) ->
  parse_obj d rl (S f) s = do '(l, r) <- parse_dict d rl f r0 [];; read_stream_tail d rl l r.
Proof. intros d rl f s r0 H. cbn [parse_obj]. rewrite H. reflexivity. Qed.

Lemma parse_stream_text : forall (len : N -> N -> option Z) (rl : N -> N -> res Z) txt o rest,
  (forall n g z, len n g = Some z -> rl n g = Ok z) -> stream_text len txt o -> token_ends rest ->
  parse_direct parser_dictionary rl (txt ++ rest) = Ok (o, rest).
Proof.
  intros len rl txt o rest Hrl H Hr. destruct H as [dt m g eol data g2 Hd Hg Heol Hg2 Hlen].
  inversion Hd as [| | | | | | | | | |t es m' He Hc]; subst.
  assert (Hkeys := collect_keys t es He).
  destruct (collect_facts es m Hkeys Hc) as [Hsort Hok].
  unfold parse_direct.
  set (tail := g ++ str "stream" ++ eol ++ data ++ g2 ++ str "endstream").
  match goal with |- parse_obj _ _ ?F _ = _ => assert (Hf : exists f, F = S f /\ (List.length t + 1 < f)%nat);
    [exists (Nat.pred F); rewrite !app_length; cbn [List.length]; lia|] end.
  destruct Hf as (f & -> & Hf).
  rewrite <- !app_assoc. cbn [app].
  rewrite (parse_obj_dict _ _ _ _ (t ++ 62 :: 62 :: tail ++ rest)) by (apply skip_of_read; [reflexivity|discriminate]).
  rewrite (proj2 (proj2 (reads_text rl)) t es He (tail ++ rest) f [] Hf). cbn [rbind].
  rewrite (dict_content_collect es m Hkeys Hc).
  assert (Ht : read_token_skip parser_dictionary (tail ++ rest) = Ok ((TyStreamBegin, str "stream"), eol ++ data ++ g2 ++ str "endstream" ++ rest)).
  { unfold tail. rewrite <- !app_assoc. rewrite skip_gap by exact Hg. apply tok_keyword; [cbn; tauto|].
    cbn in Heol. destruct Heol as [<-|[<-|[]]]; cbn; tauto. }
  unfold read_stream_tail, peek_type_skip, expect_skip. rewrite Ht. cbn [rbind fst snd ttype_eqb].
  assert (Hr2 : read_token parser_dictionary (eol ++ data ++ g2 ++ str "endstream" ++ rest) = Ok ((TyEol, []), data ++ g2 ++ str "endstream" ++ rest)).
  { cbn in Heol. destruct Heol as [<-|[<-|[]]]; reflexivity. }
  rewrite Hr2. cbn [rbind fst ttype_eqb].
  assert (Hl : stream_length rl m = Ok (Some (Z.of_nat (List.length data)))).
  { unfold stream_length. destruct Hlen as [Hin|(n & v & Hin & Hz)]; apply sm_find_in in Hin; auto using str_bytes; rewrite Hin; [reflexivity|].
    rewrite (Hrl n v _ Hz). reflexivity. }
  rewrite Hl. cbn [rbind]. replace (Z.of_nat (List.length data) <? 0)%Z with false by lia. rewrite Nat2Z.id.
  rewrite skipn_app, skipn_all, Nat.sub_diag. cbn [app skipn].
  rewrite skip_gap by exact Hg2. rewrite tok_keyword by (auto; cbn; tauto). cbn [rbind fst].
  replace (ttype_eqb (parser_dictionary (str "endstream")) TyStreamEnd) with true by reflexivity.
  rewrite firstn_app, firstn_all, Nat.sub_diag. cbn [firstn]. rewrite app_nil_r. reflexivity.
Qed.

Lemma written_stream_text : forall len m data, writable (ODict m) ->
  In (str "Length", OInt (Z.of_nat (List.length data))) m -> stream_text len (to_pdf (OStream m data)) (OStream m data).
Proof.
  intros len m data Hw Hin.
  assert (Ht := to_pdf_text (ODict m) Hw). cbn [to_pdf].
  change ([60; 60] ++ join_sp (map (fun e => (47 :: name_to_string (fst e)) ++ [32] ++ to_pdf (snd e)) m) ++ [62; 62]) with (to_pdf (ODict m)).
  assert (H := stt len (to_pdf (ODict m)) m [10] [10] data []). rewrite app_nil_l in H. apply H; auto.
  - apply gap_white; [cbn; tauto|constructor].
  - left; reflexivity.
  - constructor.
Qed.

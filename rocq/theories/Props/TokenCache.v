(** C45: looking ahead. *)
From Coq Require Import List NArith ZArith Bool Lia String.
From Coq Require Import List.
From Verif.Model Require Import Base Char Token TokenCache.
From Verif.Spec Require Import TokenCache.
From Verif.Proof Require Import Tac Token TokenCache.
Import ListNotations.
Local Open Scope Z_scope.

(** However peeking, reading and seeking are mixed, every answer up to the first failure is the one a reader without a cache gives
    that only keeps the rest of the text. *)
Theorem C45_cache_invisible_partial : forall d text qs, Forall (in_text text) qs ->
  answers d text text qs (fst (serve_all d text new_reader qs)).
Proof.
  intros d text qs Hq. destruct (serve_all_spec d text qs new_reader text) as (al & r' & E & H).
  - split; [intros p tk adv []|cbn; unfold cache_size; lia].
  - right. split; [cbn; lia|]. now exists [].
  - exact Hq.
  - rewrite E. exact H.
Qed.

(** Without seeking, the tokens that were taken are the tokens of the text in order, each once. *)
Theorem C45_each_once : forall d text qs, Forall no_seek qs ->
  let al := fst (serve_all d text new_reader qs) in
  Forall (fun a => ~ failed a) al -> tokens_are d text (taken qs al).
Proof.
  intros d text qs Hq al Hn. eapply answers_taken; [|exact Hq|exact Hn]. apply C45_cache_invisible_partial.
  rewrite Forall_forall in *. intros q H. specialize (Hq q H). destruct q; try exact I. destruct Hq.
Qed.

(** A position stands for one rest of the text: going back to a position that was told reads the same tokens again. *)
Theorem C45_rewind : forall d text before after s p,
  answered d text s QTell (APosition p) s -> answered d text after (QSeek p) ANothing before -> before = s.
Proof.
  intros d text before after s p H1 H2. inversion H1; subst. inversion H2; subst.
  match goal with A : stands_for text p s, B : stands_for text p before |- _ => rewrite <- (text_at_stands _ _ _ A), <- (text_at_stands _ _ _ B) end. reflexivity.
Qed.

(** The cache never holds more than ten tokens. *)
Theorem C45_cache_bounded : forall d text qs, (List.length (known (snd (serve_all d text new_reader qs))) <= 10)%nat.
Proof. intros d text qs. apply serve_all_small. cbn. unfold cache_size. lia. Qed.

(** After a failure the position has moved, even when the token was only looked at: the same request made again gets another answer. *)
Theorem C45_failed_peek_refuted : exists text,
  fst (serve_all parser_dictionary text new_reader [QTell; QPeek; QTell; QPeek]) =
  [APosition 0; AToken (Throw EGeneral); APosition 1; AToken (Ok (TyTrue, str "true"))].
Proof. exists (str ">true "). vm_compute. reflexivity. Qed.

(** In general: after blanks and a text that is no token, a failed look leaves the position behind the byte that was wrong. *)
Theorem C45_failed_position_refuted : forall d blanks bad next rest, Forall blank blanks -> no_token next bad ->
  let text := blanks ++ bad ++ next :: rest in
  fst (serve_all d text new_reader [QTell; QPeek; QTell]) =
  [APosition 0; AToken (Throw EGeneral); APosition (Z.of_nat (List.length (blanks ++ bad)))].
Proof.
  intros d blanks bad next rest Hb Hn text.
  assert (F : forall c, in_hex c <-> is_white c || is_numeric c || is_alpha c = true).
  { intros c. unfold in_hex, is_white, is_numeric, is_alpha. cbn [In]. rewrite !orb_true_iff, !andb_true_iff, !N.eqb_eq, !N.leb_le. intuition lia. }
  assert (Hr : read_token d text = Throw EGeneral /\ token_stop false text = (next :: rest, false)).
  { unfold text, read_token. induction Hb as [|c l Hc Hl IH].
    - cbn [app]. destruct Hn as [Hn|hs c Hh Hc H62 H60].
      + cbn [app read_token_aux token_stop]. change ((62 =? 32)%N || (62 =? 12)%N || (62 =? 9)%N || (62 =? 0)%N) with false.
        change (62 =? 37)%N with false. change (62 =? 10)%N with false. change (62 =? 13)%N with false. change (62 =? 62)%N with true. cbv iota. split; [|reflexivity].
        destruct next as [|p]; [reflexivity|]. do 6 (destruct p as [p|p|]; try reflexivity); contradiction Hn; reflexivity.
      + cbn [app read_token_aux token_stop]. rewrite <- app_assoc. cbn [app]. change ((60 =? 32)%N || (60 =? 12)%N || (60 =? 9)%N || (60 =? 0)%N) with false.
        change (60 =? 37)%N with false. change (60 =? 10)%N with false. change (60 =? 13)%N with false. change (60 =? 62)%N with false. change (60 =? 60)%N with true. cbv iota.
        assert (R : read_hex (hs ++ c :: next :: rest) = Throw EGeneral).
        { clear H60. induction Hh as [|x hs Hx Hh IH]; cbn [app read_hex].
          - destruct (N.eqb_spec c 62); [contradiction|]. rewrite F in Hc. destruct (is_white c); [contradiction Hc; reflexivity|]. cbn [orb] in Hc.
            destruct (is_numeric c || is_alpha c); [contradiction Hc; reflexivity|reflexivity].
          - apply F in Hx. rewrite IH. destruct (N.eqb_spec x 62) as [->|_]; [discriminate Hx|]. destruct (is_white x); [reflexivity|]. cbn [orb] in Hx. rewrite Hx. reflexivity. }
        assert (T : hex_stop (hs ++ c :: next :: rest) = (next :: rest, false)).
        { clear - Hh Hc F. induction Hh as [|x hs Hx Hh IH]; cbn [app hex_stop].
          - rewrite F in Hc. destruct (_ || _ || _); [contradiction Hc; reflexivity|reflexivity].
          - apply F in Hx. rewrite Hx. exact IH. }
        split; [|exact T]. rewrite R. cbn [rbind].
        assert (H0 : forall x t, x <> 60%N -> x <> 62%N -> (match x :: t with 60 :: t' => Ok ((TyDictBegin, []), t') | 62 :: t' => Ok ((TyHex, []), t') | _ => Throw EGeneral end = Throw EGeneral (A := token * bytes))%N).
        { intros x t N0 N2. destruct x as [|p]; [reflexivity|]. do 6 (destruct p as [p|p|]; try reflexivity); congruence. }
        destruct hs as [|x hs]; cbn [app]; apply H0.
        * apply H60. reflexivity.
        * exact H62.
        * intros ->. apply Forall_inv in Hh. apply F in Hh. discriminate Hh.
        * intros ->. apply Forall_inv in Hh. apply F in Hh. discriminate Hh.
    - cbn [app read_token_aux token_stop]. assert (E : ((c =? 32) || (c =? 12) || (c =? 9) || (c =? 0))%N = true) by (unfold blank in Hc; cbn [In] in Hc; lia). rewrite E. exact IH. }
  destruct Hr as [R T].
  assert (E : lex d text 0 = (Throw EGeneral, Z.of_nat (List.length (blanks ++ bad)))).
  { unfold lex. change (text_at text 0) with text. rewrite R, T. f_equal. f_equal. unfold text. rewrite !app_length. cbn [List.length]. lia. }
  unfold serve_all, serve, peek_one, read_one. cbn [cache_find known new_reader position]. rewrite E. reflexivity.
Qed.
Example C45_failed_position_case : Forall blank [32; 0]%N /\ no_token 116 [62]%N /\ no_token 62 (str "<4F 3!").
Proof.
  split; [repeat constructor; cbn; tauto|]. split; [apply no_close; discriminate|]. apply (no_hex 62 [52; 70; 32; 51]%N 33%N).
  - repeat apply Forall_cons; try apply Forall_nil; [right; left|right; right; left|left; cbn; tauto|right; left]; split; discriminate.
  - unfold in_hex. cbn [In]. lia.
  - discriminate.
  - discriminate.
Qed.

Example C45_case :
  let text := str "1 0 obj [/A(b)] endobj" in
  let qs := [QPeek; QRead; QPeek; QTell; QPeek; QRead; QExpect TyObjBegin; QPeekType; QSeek 1; QRead; QRead; QPeek; QRead] in
  Forall (in_text text) qs /\ Forall (fun a => ~ failed a) (fst (serve_all parser_dictionary text new_reader qs)) /\
  taken qs (fst (serve_all parser_dictionary text new_reader qs)) =
    [(TyInt, str "1"); (TyInt, str "0"); (TyObjBegin, str "obj"); (TyInt, str "0"); (TyObjBegin, str "obj"); (TyArrayBegin, [])] /\
  fst (serve_all parser_dictionary (str "R") new_reader [QRead; QTell; QPeek; QSeek (-1); QRead]) =
    [AToken (Ok (TyRefMarker, str "R")); APosition (-1); AToken (Ok (TyEof, [])); ANothing; AToken (Ok (TyEof, []))].
Proof.
  cbv zeta. split; [repeat constructor; cbn; lia|]. split; [|split; vm_compute; reflexivity].
  apply Forall_forall. intros a H. vm_compute in H. repeat (destruct H as [<-|H]; [exact (fun x => x)|]). destruct H.
Qed.

Print Assumptions C45_cache_invisible_partial.
Print Assumptions C45_each_once.
Print Assumptions C45_rewind.
Print Assumptions C45_cache_bounded.
Print Assumptions C45_failed_peek_refuted.
Print Assumptions C45_failed_position_refuted.

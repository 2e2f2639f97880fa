(** startxref lines and the file header. *)
From Coq Require Import List NArith ZArith Bool Lia String.
From Verif.Model Require Import Base Char Numbers Token StartXref Lines Header.
From Verif.Spec Require Import Strings Grammar FileWrite.
From Verif.Proof Require Import Tac Numbers Strings Token Writer.
Import ListNotations.
Local Open Scope N_scope.

Lemma rev_unknown_noeol : forall c t, fst (rev_unknown c t) <> RtEol.
Proof.
  intros c t. unfold rev_unknown. destruct (is_numeric c).
  - destruct (span is_numeric t) as [a b]. destruct (span is_sign b). discriminate.
  - destruct (span (fun x => negb (is_white x)) t). cbn [fst]. destruct (bytes_eqb _ _); [discriminate|]. destruct (bytes_eqb _ _); discriminate.
Qed.

Definition drop13 (t : bytes) : bytes := match t with 13 :: t' => t' | _ => t end.
Lemma drop13_cases : forall t, (exists t', t = 13 :: t' /\ drop13 t = t') \/ drop13 t = t.
Proof.
  intros [|x t]; [right; reflexivity|]. destruct (N.eq_dec x 13) as [->|H]; [left; exists t; split; reflexivity|right].
  unfold drop13. repeat (match goal with |- context [match ?v with _ => _ end] => destruct v end; try reflexivity; try congruence).
Qed.
Lemma rev_token_10 : forall t, rev_token (10 :: t) = (RtEol, drop13 t). Proof. reflexivity. Qed.

Lemma rev_skip_word : forall k ws fuel c t, (List.length ws <= k)%nat -> Forall (fun c => In c pdf_white) ws -> (List.length ws < fuel)%nat ->
  is_white c = false -> rev_token_skip fuel (ws ++ c :: t) = Ok (rev_unknown c t).
Proof.
  induction k as [|k IH]; intros ws fuel c t Hk Hw Hf Hc.
  - destruct ws; [|cbn in Hk; lia]. destruct fuel as [|fuel]; [cbn in Hf; lia|]. cbn [app rev_token_skip rev_token].
    unfold is_white in Hc. replace (c =? 10) with false by lia. replace ((c =? 32) || (c =? 12) || (c =? 9) || (c =? 0)) with false by lia.
    replace (c =? 13) with false by lia. assert (H := rev_unknown_noeol c t). destruct (rev_unknown c t) as [[] r]; try reflexivity. destruct H; reflexivity.
  - destruct ws as [|x ws]; [apply IH; auto; cbn; lia|]. inversion Hw as [|? ? Hx Hw']; subst. cbn [List.length] in *.
    destruct fuel as [|fuel]; [lia|].
    destruct (N.eq_dec x 10) as [->|H10].
    + cbn [app rev_token_skip]. rewrite rev_token_10.
      destruct ws as [|y ws].
      * cbn [app]. assert (Hc13 : c <> 13) by (intros ->; discriminate).
        destruct (drop13_cases (c :: t)) as [(t' & E & _)|E]; [congruence|]. rewrite E.
        apply (IH [] fuel c t); auto; cbn; lia.
      * destruct (drop13_cases ((y :: ws) ++ c :: t)) as [(t' & E1 & E2)|E]; [rewrite E2|rewrite E].
        -- cbn [app] in E1. inversion E1; subst. inversion Hw'; subst. apply IH; auto; cbn [List.length] in *; lia.
        -- apply (IH (y :: ws)); auto; cbn [List.length] in *; lia.
    + destruct (N.eq_dec x 13) as [->|H13].
      * cbn [app rev_token_skip rev_token]. cbn [N.eqb Pos.eqb orb]. apply IH; auto; lia.
      * assert (E : rev_token ((x :: ws) ++ c :: t) = rev_token (ws ++ c :: t)).
        { cbn [app rev_token]. replace (x =? 10) with false by lia.
          replace ((x =? 32) || (x =? 12) || (x =? 9) || (x =? 0)) with true by (cbn in Hx; lia). reflexivity. }
        cbn [rev_token_skip]. rewrite E. assert (H := IH ws (S fuel) c t ltac:(lia) Hw' ltac:(lia) Hc). cbn [rev_token_skip] in H. exact H.
Qed.

Lemma span_not_white : forall w rest, forallb (fun x => negb (is_white x)) w = true ->
  match rest with [] => True | x :: _ => is_white x = true end ->
  span (fun x => negb (is_white x)) (w ++ rest) = (w, rest).
Proof. intros w rest Hw Hr. apply span_app; [exact Hw|]. destruct rest; [exact I|]. rewrite Hr. reflexivity. Qed.

Definition ends_white (s : bytes) : Prop := s = [] \/ exists p x, s = p ++ [x] /\ In x pdf_white.

Lemma ends_white_rev : forall s, ends_white s -> match rev s with [] => True | x :: _ => is_white x = true end.
Proof.
  intros s [->|(p & x & -> & Hx)]; [exact I|]. rewrite rev_app_distr. cbn. apply is_white_spec. exact Hx.
Qed.

Lemma last_lines_read : forall ws pre offset, Forall (fun c => In c pdf_white) ws -> ends_white pre -> (0 <= offset < 2 ^ 63)%Z ->
  read_last_xref_offset (rev (pre ++ write_xref_offset offset ++ ws)) = Ok offset.
Proof.
  intros ws pre offset Hws Hpre Ho.
  assert (Erev : rev (pre ++ write_xref_offset offset ++ ws) =
    (rev ws ++ [10]) ++ 70 :: str "OE%%" ++ [10] ++ rev (digits 10 (Z.to_N offset)) ++ [10] ++ 102 :: str "erxtrats" ++ rev pre).
  { unfold write_xref_offset, to_string_Z. replace (offset <? 0)%Z with false by lia. rewrite !rev_app_distr. rewrite <- !app_assoc. reflexivity. }
  rewrite Erev. clear Erev. unfold read_last_xref_offset.
  assert (Hlen : (List.length (rev ws ++ [10%N]) + 2 < S (List.length ((rev ws ++ [10]) ++ 70 :: str "OE%%" ++ [10] ++ rev (digits 10 (Z.to_N offset)) ++ [10] ++ 102 :: str "erxtrats" ++ rev pre)%N))%nat).
  { rewrite !app_length. cbn [List.length]. rewrite !app_length. change (List.length (str "OE%%")) with 4%nat. lia. }
  revert Hlen. generalize (S (List.length ((rev ws ++ [10]) ++ 70 :: str "OE%%" ++ [10] ++ rev (digits 10 (Z.to_N offset)) ++ [10] ++ 102 :: str "erxtrats" ++ rev pre)%N)).
  intros F Hlen.
  set (ds := digits 10 (Z.to_N offset)).
  assert (Hds : Forall decimal_digit ds) by apply digits10_decimal.
  assert (Hne : ds <> []) by apply digits_nonempty.
  assert (Hrv : Forall (fun c => In c pdf_white) (rev ws ++ [10])).
  { apply Forall_app. split; [apply Forall_rev; exact Hws|]. constructor; [cbn; tauto|constructor]. }
  rewrite (rev_skip_word (List.length (rev ws ++ [10]))) by (auto; lia).
  unfold rev_unknown at 1. change (is_numeric 70) with false. cbv iota.
  rewrite span_not_white by reflexivity. change (bytes_eqb (70 :: str "OE%%") (str "FOE%%")) with true. cbv iota. cbn [rbind].
  destruct (rev ds) as [|dl dr] eqn:Er.
  { exfalso. apply Hne. apply (f_equal (@rev N)) in Er. rewrite rev_involutive in Er. exact Er. }
  assert (Hdr : Forall decimal_digit (dl :: dr)) by (rewrite <- Er; apply Forall_rev; exact Hds).
  cbn [app]. pose proof (Forall_inv Hdr) as Hdl. pose proof (Forall_inv_tail Hdr) as Hdr'.
  assert (Hnum : forall y, decimal_digit y -> is_numeric y = true) by (intros y Hx; unfold decimal_digit, is_numeric in *; lia).
  change (10 :: dl :: dr ++ 10 :: 102 :: str "erxtrats" ++ rev pre) with ([10] ++ dl :: dr ++ 10 :: 102 :: str "erxtrats" ++ rev pre).
  rewrite (rev_skip_word 1); [| |constructor; [cbn; tauto|constructor]| |].
  2: cbn; lia.
  2: { cbn [List.length]; lia. }
  2: { unfold decimal_digit, is_white in *. lia. }
  unfold rev_unknown at 1. rewrite (Hnum dl Hdl).
  rewrite span_app; [| |reflexivity].
  2: { apply forallb_forall. rewrite Forall_forall in Hdr'. intros x Hx. apply Hnum, Hdr', Hx. }
  cbn [span is_sign N.eqb Pos.eqb orb]. cbn [rbind].
  change (10 :: 102 :: str "erxtrats" ++ rev pre) with ([10] ++ 102 :: str "erxtrats" ++ rev pre).
  rewrite (rev_skip_word 1); [|cbn; lia|constructor; [cbn; tauto|constructor]| |reflexivity].
  2: { cbn [List.length]; lia. }
  unfold rev_unknown. change (is_numeric 102) with false. cbv iota.
  rewrite span_not_white; [|reflexivity|apply ends_white_rev; exact Hpre].
  change (bytes_eqb (102 :: str "erxtrats") (str "FOE%%")) with false. change (bytes_eqb (102 :: str "erxtrats") (str "ferxtrats")) with true.
  cbv iota. cbn [rbind]. rewrite app_nil_r, <- Er, rev_involutive. unfold ds. rewrite stoll_digits; [f_equal; lia|]. unfold int64_max. lia.
Qed.

Lemma offset_lines_length : forall offset, (0 <= offset < 2 ^ 63)%Z -> (List.length (write_xref_offset offset) <= 36)%nat.
Proof.
  intros offset Ho. unfold write_xref_offset, to_string_Z. replace (offset <? 0)%Z with false by lia.
  rewrite !app_length. assert (H := digits_len (Z.to_N offset) 19 ltac:(lia)).
  assert (Hlt : Z.to_N offset < 10 ^ 19).
  { change (10 ^ 19) with 10000000000000000000. change (2 ^ 63)%Z with 9223372036854775808%Z in Ho. lia. }
  specialize (H Hlt). change (N.to_nat 19) with 19%nat in H. unfold to_string_N.
  change (List.length (str "startxref")) with 9%nat. change (List.length (str "%%EOF")) with 5%nat.
  change (List.length [10]) with 1%nat. lia.
Qed.

Lemma ends_white_skipn : forall k s, ends_white s -> ends_white (skipn k s).
Proof.
  intros k s [->|(p & x & -> & Hx)]; [left; apply skipn_nil|]. rewrite skipn_app.
  destruct (k - List.length p)%nat as [|j] eqn:E.
  - right. exists (skipn k p), x. split; [reflexivity|exact Hx].
  - left. rewrite skipn_all2 by lia. cbn. apply skipn_nil.
Qed.

Lemma last_offset_found : forall content ws offset, ends_white content -> Forall (fun c => In c pdf_white) ws ->
  (List.length ws <= N.to_nat 16000)%nat -> (0 <= offset < 2 ^ 63)%Z ->
  last_xref_offset (content ++ write_xref_offset offset ++ ws) = Ok offset.
Proof.
  intros content ws offset Hc Hw Hlen Ho. unfold last_xref_offset. set (file := content ++ write_xref_offset offset ++ ws).
  assert (HL := offset_lines_length offset Ho). unfold trailer_window.
  set (k := (List.length file - _)%nat).
  assert (Hk : (k <= List.length content)%nat).
  { unfold k, file. rewrite !app_length. destruct (Nat.ltb_spec (List.length content + (List.length (write_xref_offset offset) + List.length ws)) (N.to_nat 16384)); lia. }
  unfold file. rewrite skipn_app. replace (k - List.length content)%nat with O by lia. cbn [skipn].
  apply last_lines_read; auto. apply ends_white_skipn, Hc.
Qed.

(** ** header *)
Lemma readline_other : forall c t, c <> 10 -> c <> 13 -> readline (c :: t) = let '(l, r, e) := readline t in (c :: l, r, e).
Proof. intros c t H1 H2. cbn [readline]. replace (c =? 13) with false by lia. replace (c =? 10) with false by lia. reflexivity. Qed.
Lemma readline_line : forall l rest, Forall (fun c => c <> 10 /\ c <> 13) l ->
  readline (l ++ 10 :: rest) = (l, rest, false).
Proof.
  induction l as [|c l IH]; intros rest H; [reflexivity|]. inversion H as [|? ? [H1 H2] H']; subst. cbn [app readline].
  replace (c =? 13) with false by lia. replace (c =? 10) with false by lia. rewrite IH by exact H'. reflexivity.
Qed.
Lemma readline_cr : forall l rest, Forall (fun c => c <> 10 /\ c <> 13) l ->
  readline (l ++ 13 :: rest) = let '(_, r, e) := readline (13 :: rest) in (l, r, e).
Proof.
  induction l as [|c l IH]; intros rest H.
  - cbn [app]. assert (E : exists r e, readline (13 :: rest) = ([], r, e)).
    { cbn [readline N.eqb Pos.eqb]. destruct rest as [|x t]; [eauto|].
      repeat (match goal with |- context [match ?v with _ => _ end] => destruct v end; eauto). }
    destruct E as (r & e & E). rewrite E. reflexivity.
  - inversion H as [|? ? [H1 H2] H']; subst. cbn [app]. rewrite readline_other by assumption. rewrite IH by exact H'.
    destruct (readline (13 :: rest)) as [[? ?] ?]. reflexivity.
Qed.
Lemma readline_13 : forall rest, rest <> [] -> 
  (exists t, rest = 10 :: t /\ readline (13 :: rest) = ([], t, false)) \/ ((match rest with 10 :: _ => False | _ => True end) /\ readline (13 :: rest) = ([], rest, false)).
Proof.
  intros [|x t] H; [congruence|]. destruct (N.eq_dec x 10) as [->|Hx]; [left; eauto|right].
  split; [repeat (match goal with |- match ?v with _ => _ end => destruct v end; auto)|].
  cbn [readline N.eqb Pos.eqb].
  repeat (match goal with |- context [match ?v with _ => _ end] => destruct v end; try reflexivity; try congruence).
Qed.

Lemma match_header_prefix : forall l ab, match_header l = Some ab -> exists more, l = str "%PDF-" ++ more.
Proof.
  intros l ab H. unfold match_header in H.
  repeat (match type of H with match ?v with _ => _ end = _ => destruct v; try discriminate end).
  eexists. reflexivity.
Qed.

Lemma header_found : forall v rest fuel, (0 < fuel)%nat -> read_header_fuel fuel (write_header v ++ rest) = Ok v.
Proof.
  intros v rest [|f] Hf; [lia|]. cbn [read_header_fuel].
  replace (write_header v ++ rest) with ((str "%PDF-" ++ version_text v) ++ 10 :: ([37; 222; 173; 192; 222; 10] ++ rest)).
  2: { unfold write_header. rewrite <- !app_assoc. reflexivity. }
  rewrite readline_line; [destruct v; reflexivity|]. destruct v; repeat constructor; discriminate.
Qed.

Lemma match_header_shape : forall l a b v, match_header l = Some (a, b) -> header_version (a, b) = Some v ->
  exists major minor more, In major (str "12") /\ In minor (str "0123456789") /\ l = str "%PDF-" ++ major :: str "." ++ minor :: more.
Proof.
  intros l a b v H Hv. unfold match_header in H.
  repeat (match type of H with match ?v with _ => _ end = _ => destruct v eqn:?; try discriminate H end).
  match goal with E : (is_numeric ?x && is_numeric ?y) = true, E2 : _ = Some (a, b) |- _ =>
    exists x, y; apply andb_true_iff in E; destruct E as [Ex Ey];
    unfold is_numeric in Ex, Ey; injection E2 as <- <-
  end.
  eexists. split; [|split].
  - unfold header_version in Hv. change (str "12") with [49; 50]. cbn [In].
    match type of Hv with context [if ?c then _ else _] => destruct c eqn:E1 end; [left; lia|].
    match type of Hv with context [if ?c then _ else _] => destruct c eqn:E2 end; [right; left; lia|]. discriminate Hv.
  - clear Hv. match goal with |- In ?y _ => assert (48 <= y <= 57) as Hy by lia; clear - Hy end.
    change (str "0123456789") with [48; 49; 50; 51; 52; 53; 54; 55; 56; 57]. cbn [In]. lia.
  - reflexivity.
Qed.

Lemma header_after_garbage : forall k ls v rest fuel, (List.length (lines_text ls) <= k)%nat -> (k < fuel)%nat -> Forall garbage_line ls ->
  read_header_fuel fuel (lines_text ls ++ write_header v ++ rest) = Ok v.
Proof.
  induction k as [|k IH]; intros ls v rest fuel Hk Hf Hg.
  - destruct ls as [|[l e] ls]; [apply header_found; lia|]. exfalso. inversion Hg as [|? ? (H1 & H2 & H3) _]; subst. cbn [fst snd] in *.
    cbn [lines_text flat_map] in Hk. rewrite !app_length in Hk. cbn in H2. cbn [fst snd] in Hk. repeat (destruct H2 as [<-|H2]; [cbn in Hk; lia|]). destruct H2.
  - destruct ls as [|[l e] ls]; [apply header_found; lia|]. inversion Hg as [|? ? (H1 & H2 & H3) Hg']; subst. cbn [fst snd] in *.
    change (lines_text ((l, e) :: ls)) with ((l ++ e) ++ lines_text ls) in *. rewrite !app_length in Hk.
    destruct fuel as [|fuel]; [lia|]. rewrite <- !app_assoc.
    assert (Hm : forall (x : res version),
              match match_header l with Some ab => match header_version ab with Some v => v | None => x end | None => x end = x).
    { intros x. destruct (match_header l) as [[a b]|] eqn:E; [|reflexivity]. destruct (header_version (a, b)) eqn:E2; [|reflexivity].
      exfalso. apply H3. exact (match_header_shape l a b _ E E2). }
    assert (Hrest : lines_text ls ++ write_header v ++ rest <> []).
    { intros C. apply app_eq_nil in C. destruct C as [_ C]. discriminate. }
    cbn [read_header_fuel]. cbn in H2. destruct H2 as [<-|[<-|[<-|[]]]]; cbn [app List.length] in *.
    + rewrite readline_line by exact H1. rewrite Hm. apply IH; auto; lia.
    + rewrite readline_cr by exact H1. destruct (readline_13 _ Hrest) as [(t & Et & E)|[_ E]]; rewrite E; rewrite Hm.
      * (* the next line is empty and ends with the line feed that was taken together with the carriage return *)
        destruct ls as [|[l2 e2] ls2]; [discriminate|]. inversion Hg' as [|? ? (G1 & G2 & G3) Hg2]; subst. cbn [fst snd] in *.
        change (lines_text ((l2, e2) :: ls2)) with ((l2 ++ e2) ++ lines_text ls2) in *. rewrite app_length in Hk.
        destruct l2 as [|c2 l2].
        -- cbn [app] in Et, Hk. cbn in G2. destruct G2 as [<-|[<-|[<-|[]]]]; cbn [app] in Et; inversion Et; subst.
           apply IH; auto; cbn [List.length] in *; lia.
        -- cbn [app] in Et. inversion Et; subst. inversion G1 as [|? ? [C _] _]; subst. congruence.
      * apply IH; auto; lia.
    + rewrite readline_cr by exact H1. cbn [readline N.eqb Pos.eqb]. rewrite Hm. apply IH; auto; lia.
Qed.

Lemma header_roundtrip : forall ls v rest, Forall garbage_line ls -> read_header (lines_text ls ++ write_header v ++ rest) = Ok v.
Proof.
  intros ls v rest Hg. unfold read_header. apply (header_after_garbage (List.length (lines_text ls))); auto. rewrite app_length. lia.
Qed.

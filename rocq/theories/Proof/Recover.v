(** Lemmas for the recovery of stream data. *)
From Coq Require Import List NArith ZArith Bool Lia String.
From Verif.Model Require Import Base Char Numbers SMap Object Token Lines Parser StartXref Header.
From Verif.Spec Require Import Strings Grammar Recover.
From Verif.Proof Require Import Tac Numbers Strings Token SMap Parser Writer StreamObj StartXref.
Import ListNotations.
Local Open Scope N_scope.

Definition W : bytes := str "endstream".
Definition no_eol (l : bytes) : Prop := Forall (fun c => c <> 10 /\ c <> 13) l.

Lemma is_prefix_spec : forall w s, is_prefix w s = true -> exists b, s = w ++ b.
Proof.
  induction w as [|x w IH]; intros s H; [exists s; reflexivity|]. destruct s as [|y s]; [discriminate|]. cbn [is_prefix] in H.
  apply andb_true_iff in H. destruct H as [H1 H2]. apply N.eqb_eq in H1. destruct (IH s H2) as [b ->]. exists b. cbn. congruence.
Qed.
Lemma is_prefix_app : forall w b, is_prefix w (w ++ b) = true.
Proof. induction w as [|x w IH]; intros b; [reflexivity|]. cbn [is_prefix app]. rewrite N.eqb_refl, IH. reflexivity. Qed.

Lemma find_none : forall w s, ~ occurs w s -> find_sub w s = None.
Proof.
  intros w s H. induction s as [|c t IH]; cbn [find_sub].
  - destruct (is_prefix w []) eqn:E; [|reflexivity]. apply is_prefix_spec in E. destruct E as [b E]. exfalso. apply H. exists [], b. exact E.
  - destruct (is_prefix w (c :: t)) eqn:E.
    + apply is_prefix_spec in E. destruct E as [b E]. exfalso. apply H. exists [], b. exact E.
    + rewrite IH; [reflexivity|]. intros (a & b & ->). apply H. exists (c :: a), b. reflexivity.
Qed.

Lemma no_border : forall l, ~ occurs W l -> l <> [] -> is_prefix W (l ++ W) = false.
Proof.
  intros l H Hne. destruct (is_prefix W (l ++ W)) eqn:E; [|reflexivity]. exfalso.
  destruct (le_lt_dec 9 (List.length l)) as [Hl|Hl].
  - apply is_prefix_spec in E. destruct E as [b E]. apply H. exists [], (skipn 9 l).
    assert (F := f_equal (firstn 9) E). rewrite firstn_app in F. replace (9 - List.length l)%nat with O in F by lia.
    change (firstn 0 W) with (@nil N) in F. rewrite app_nil_r in F. change (firstn 9 (W ++ b)) with W in F.
    change (l = W ++ skipn 9 l). rewrite <- F. symmetry. apply firstn_skipn.
  - clear H. change W with [101; 110; 100; 115; 116; 114; 101; 97; 109] in E.
    do 9 (destruct l as [|? l]; [try congruence; cbn [app is_prefix] in E;
      repeat match type of E with (_ && _) = true => apply andb_true_iff in E; destruct E as [? E] end; discriminate|]).
    cbn [List.length] in Hl. lia.
Qed.
Lemma find_end : forall l, ~ occurs W l -> find_sub W (l ++ W) = Some (List.length l).
Proof.
  induction l as [|c l IH]; intros H; [reflexivity|]. 
  assert (E : is_prefix W ((c :: l) ++ W) = false) by (apply no_border; [exact H|discriminate]).
  cbn [app] in *. change (find_sub W (c :: l ++ W)) with (if is_prefix W (c :: l ++ W) then Some O else match find_sub W (l ++ W) with Some n => Some (S n) | None => None end).
  rewrite E. rewrite IH; [reflexivity|]. intros (a & b & ->). apply H. exists (c :: a), b. reflexivity.
Qed.

Lemma occurs_part : forall w a b c, ~ occurs w (a ++ b ++ c) -> ~ occurs w b.
Proof. intros w a b c H (x & y & ->). apply H. exists (a ++ x), (y ++ c). rewrite <- !app_assoc. reflexivity. Qed.

(** the first line end of a text *)
Lemma split_line : forall s : bytes, no_eol s \/ exists l c t, s = l ++ c :: t /\ no_eol l /\ (c = 10 \/ c = 13).
Proof.
  induction s as [|c t IH]; [left; constructor|].
  destruct (N.eq_dec c 10) as [->|H10]; [right; exists [], 10, t; repeat split; [constructor|auto]|].
  destruct (N.eq_dec c 13) as [->|H13]; [right; exists [], 13, t; repeat split; [constructor|auto]|].
  destruct IH as [IH|(l & c' & t' & -> & H1 & H2)].
  - left. constructor; auto.
  - right. exists (c :: l), c', t'. repeat split; [constructor; auto|exact H2].
Qed.

Lemma readline_crlf : forall l rest, no_eol l -> readline (l ++ 13 :: 10 :: rest) = (l, rest, false).
Proof. intros l rest H. rewrite readline_cr by exact H. reflexivity. Qed.
Lemma readline_cr_other : forall l c rest, no_eol l -> c <> 10 -> readline (l ++ 13 :: c :: rest) = (l, c :: rest, false).
Proof.
  intros l c rest H Hc. rewrite readline_cr by exact H.
  destruct (readline_13 (c :: rest)) as [(t & E & _)|[_ E]]; [discriminate|inversion E; congruence|]. rewrite E. reflexivity.
Qed.

Section Scan.
Notation d := parser_dictionary.

Variable whole tail : bytes.
Variable result : nat -> res (nat * bytes).
(** reading the last line of the data, which has no line end, and what follows *)
Hypothesis last_line : forall f l off, (2 <= f)%nat -> no_eol l -> ~ occurs W l ->
  scan_endstream d f whole off (l ++ tail) = result (off + List.length l).
Hypothesis tail_first : match tail with 10 :: _ => False | [] => False | _ => True end.

Lemma scan_data : forall k dd f off, (List.length dd <= k)%nat -> (List.length dd + 2 <= f)%nat -> ~ occurs W dd ->
  scan_endstream d f whole off (dd ++ tail) = result (off + List.length dd).
Proof.
  induction k as [|k IH]; intros dd f off Hk Hf Hw.
  - destruct dd; [|cbn in Hk; lia]. apply last_line; [lia|constructor|exact Hw].
  - destruct (split_line dd) as [Hn|(l & c & t & -> & Hl & Hc)]; [apply last_line; [lia|exact Hn|exact Hw]|].
    rewrite app_length in Hk, Hf. rewrite (app_length l). cbn [List.length] in Hk, Hf |- *. destruct f as [|f]; [lia|]. cbn [scan_endstream].
    assert (Hwl : ~ occurs W l) by (apply (occurs_part W [] l (c :: t)); exact Hw).
    destruct Hc as [-> | ->].
    + rewrite <- app_assoc. cbn [app]. rewrite readline_line by exact Hl. fold W. rewrite find_none by exact Hwl.
      replace (List.length (l ++ 10%N :: t ++ tail) - List.length (t ++ tail))%nat with (List.length l + 1)%nat
        by (rewrite !app_length; cbn [List.length]; rewrite app_length; lia).
      rewrite IH; [f_equal; lia|lia|lia|]. replace (l ++ 10 :: t) with ((l ++ [10]) ++ t ++ []) in Hw by (rewrite <- app_assoc, app_nil_r; reflexivity).
      apply occurs_part in Hw. exact Hw.
    + assert (Ht : ~ occurs W t).
      { replace (l ++ 13 :: t) with ((l ++ [13]) ++ t ++ []) in Hw by (rewrite <- app_assoc, app_nil_r; reflexivity). apply occurs_part in Hw. exact Hw. }
      rewrite <- app_assoc. cbn [app].
      destruct t as [|x t].
      * cbn [app]. destruct tail as [|y tl] eqn:Etail; [destruct tail_first|]. rewrite readline_cr_other; [|exact Hl|intros ->; exact tail_first].
        fold W. rewrite find_none by exact Hwl.
        replace (List.length (l ++ 13%N :: y :: tl) - List.length (y :: tl))%nat with (List.length l + 1)%nat by (rewrite app_length; cbn [List.length]; lia).
        change (y :: tl) with ([] ++ y :: tl). rewrite IH; [cbn [List.length]; f_equal; lia|cbn; lia|cbn in *; lia|exact Ht].
      * cbn [app]. destruct (N.eq_dec x 10) as [->|Hx].
        -- rewrite readline_crlf by exact Hl. fold W. rewrite find_none by exact Hwl.
           replace (List.length (l ++ 13%N :: 10%N :: t ++ tail) - List.length (t ++ tail))%nat with (List.length l + 2)%nat
             by (rewrite !app_length; cbn [List.length]; rewrite app_length; lia).
           cbn [List.length] in *. rewrite IH; [f_equal; lia|lia|lia|]. 
           intros (a & b & ->). apply Ht. exists (10 :: a), b. reflexivity.
        -- rewrite readline_cr_other by assumption. fold W. rewrite find_none by exact Hwl.
           replace (List.length (l ++ 13%N :: x :: t ++ tail) - List.length (x :: t ++ tail))%nat with (List.length l + 1)%nat
             by (rewrite !app_length; cbn [List.length]; rewrite app_length; lia).
           change (x :: t ++ tail) with ((x :: t) ++ tail). rewrite IH; [f_equal; cbn [List.length] in *; lia|cbn [List.length] in *; lia|cbn [List.length] in *; lia|exact Ht].
Qed.
End Scan.

Lemma beq_true : forall a b, bytes_eqb a b = true -> a = b.
Proof.
  induction a as [|x a IH]; intros [|y b] H; try reflexivity; try discriminate. cbn [bytes_eqb] in H.
  apply andb_true_iff in H. destruct H as [H1 H2]. apply N.eqb_eq in H1. rewrite H1, (IH b H2). reflexivity.
Qed.

(** a word of regular characters other than endstream *)
Lemma word_not_end : forall w after, w <> [] -> Forall pdf_regular w -> token_ends after -> w <> W ->
  exists tk r, read_token_skip parser_dictionary (w ++ after) = Ok (tk, r) /\ fst tk <> TyStreamEnd.
Proof.
  intros w after Hne Hw Ha Hend. destruct w as [|c w]; [congruence|].
  assert (Hreg : forallb is_regular (c :: w) = true).
  { apply forallb_forall. rewrite Forall_forall in Hw. intros x Hx. apply is_regular_spec. auto. }
  destruct (is_numeric c || (c =? 43) || (c =? 45) || (c =? 46)) eqn:En.
  - assert (Hc : pdf_regular c) by (inversion Hw; assumption).
    assert (R : read_token parser_dictionary ((c :: w) ++ after) = Ok (read_unknown parser_dictionary c (w ++ after))).
    { destruct Hc as [H1 H2]. unfold read_token. cbn [app read_token_aux]. cbn [In pdf_white pdf_delimiters] in H1, H2.
      repeat match goal with |- context [c =? ?n] => replace (c =? n) with false by (clear - H1 H2; symmetry; apply N.eqb_neq; intros ->; tauto) end. reflexivity. }
    unfold read_unknown in R. rewrite En in R. destruct (span is_numeric (w ++ after)) as [ds s1].
    assert (G : exists tk r, read_token parser_dictionary ((c :: w) ++ after) = Ok (tk, r) /\ (fst tk = TyInt \/ fst tk = TyReal)).
    { destruct (c =? 46); [rewrite R; eauto|]. rewrite R.
      destruct s1 as [|x s2]; [eauto|].
      destruct (N.eq_dec x 46) as [->|Hx]; [destruct (span is_numeric s2) as [ds2 s3]; eauto|].
      do 2 eexists. split; [|left].
      - destruct x as [|p]; [reflexivity|]. do 6 (destruct p as [p|p|]; try reflexivity). congruence.
      - reflexivity. }
    destruct G as (tk & r & G & T). exists tk, r. split; [apply skip_of_read; [exact G|]|]; destruct T as [-> | ->]; discriminate.
  - exists (parser_dictionary (c :: w), c :: w), after. split.
    + apply tok_word; [exact Hreg|exact En|exact Ha|]. unfold parser_dictionary. repeat (match goal with |- (if ?b then _ else _) <> _ => destruct b end; [discriminate|]). discriminate.
    + cbn [fst]. unfold parser_dictionary.
      destruct (bytes_eqb (c :: w) (str "stream")); [discriminate|].
      destruct (bytes_eqb (c :: w) (str "endstream")) eqn:E; [exfalso; apply Hend; apply beq_true in E; exact E|].
      repeat (match goal with |- (if ?b then _ else _) <> _ => destruct b end; [discriminate|]). discriminate.
Qed.

Lemma skipn_beyond : forall (z : Z) (s : bytes), (Z.of_nat (List.length s) <= z)%Z -> skipn (Z.to_nat z) s = [].
Proof. intros z s H. apply skipn_all2. lia. Qed.

(** what the dictionary becomes *)
Definition fixed_dict (l : list (bytes * obj)) (n : nat) : list (bytes * obj) :=
  match sm_find (str "Length") l with
  | None => sm_insert (str "Length") (OInt (Z.of_nat n)) l
  | Some (OInt _) => sm_insert (str "Length") (OInt (Z.of_nat n)) (sm_remove (str "Length") l)
  | Some _ => l
  end.

Lemma found_corrected : forall m m' n, sm_sorted m -> sm_keys_ok m -> sm_sorted m' -> sm_keys_ok m' ->
  (forall k, all_bytes k -> sm_find k m' = if list_eq_dec N.eq_dec k (str "Length") then Some (OInt (Z.of_nat n)) else sm_find k m) ->
  corrected m m' n.
Proof.
  intros m m' n Hs Hk Hs' Hk' Hf. split.
  - intros k v Hkn. split; intros H.
    + assert (Hb : all_bytes k) by (unfold sm_keys_ok in Hk; rewrite Forall_forall in Hk; exact (Hk _ H)).
      apply sm_find_in; auto. rewrite Hf by exact Hb. destruct (list_eq_dec N.eq_dec k (str "Length")); [congruence|]. apply sm_find_in; assumption.
    + assert (Hb : all_bytes k) by (unfold sm_keys_ok in Hk'; rewrite Forall_forall in Hk'; exact (Hk' _ H)).
      apply sm_find_in in H; auto. rewrite Hf in H by exact Hb. destruct (list_eq_dec N.eq_dec k (str "Length")); [congruence|]. apply sm_find_in in H; assumption.
  - right. intros v. rewrite <- sm_find_in by auto using str_bytes. rewrite Hf by apply str_bytes.
    destruct (list_eq_dec N.eq_dec (str "Length") (str "Length")); [|congruence]. split; [intros [= <-]; reflexivity|intros ->; reflexivity].
Qed.

Section Rec.
Variable len : N -> N -> option Z.
Variable rl : N -> N -> res Z.
Hypothesis Hrl : forall n g z, len n g = Some z -> rl n g = Ok z.
Notation d := parser_dictionary.

Lemma fixed_corrected : forall m text n, sm_sorted m -> sm_keys_ok m -> damaged_length len m text -> corrected m (fixed_dict m n) n.
Proof.
  intros m text n Hs Hk Hd. unfold fixed_dict.
  assert (HL : all_bytes (str "Length")) by apply str_bytes.
  destruct (sm_find (str "Length") m) as [v|] eqn:E.
  - assert (Hv : (exists z, v = OInt z) \/ exists i g, v = ORef i g).
    { destruct Hd as [Hm|z Hz _|z Hz _|z b0 g0 w0 a0 Hz _]; [exfalso; apply (Hm v); apply sm_find_in; assumption|..];
        destruct Hz as [Hz|(i & g & Hz & _)]; apply sm_find_in in Hz; auto; rewrite Hz in E; injection E as <-; eauto. }
    destruct Hv as [[z ->]|(i & g & ->)].
    + apply found_corrected; [exact Hs|exact Hk|apply sm_insert_sorted, sm_remove_sorted; exact Hs|
        apply sm_insert_keys_ok; [apply sm_remove_forall; exact Hk|exact HL]|].
      intros k Hb. rewrite sm_find_insert; [| | |exact HL|exact Hb]; [|apply sm_remove_sorted; exact Hs|apply sm_remove_forall; exact Hk].
      rewrite !sm_find_remove by assumption. destruct (list_eq_dec N.eq_dec k (str "Length")); [reflexivity|]. destruct (sm_find k m); reflexivity.
    + split; [tauto|]. left. exists i, g. split; [apply sm_find_in; assumption|reflexivity].
  - apply found_corrected; [exact Hs|exact Hk|apply sm_insert_sorted; exact Hs|apply sm_insert_keys_ok; [exact Hk|exact HL]|].
    intros k Hb. rewrite sm_find_insert by assumption. destruct (list_eq_dec N.eq_dec k (str "Length")) as [->|]; [rewrite E; reflexivity|].
    destruct (sm_find k m); reflexivity.
Qed.

(** a damaged length leads to the search *)
Lemma tail_recovers : forall m g eol text r n, sm_sorted m -> sm_keys_ok m -> gap g -> In eol [[10]; [13; 10]] ->
  damaged_length len m text ->
  scan_endstream d (S (List.length text)) text 0 text = Ok (n, r) ->
  read_stream_tail d rl m (g ++ str "stream" ++ eol ++ text) = Ok (OStream (fixed_dict m n) (firstn n text), r).
Proof.
  intros m g eol text r n Hs Hk Hg Heol Hd Hscan.
  assert (Ht : read_token_skip d (g ++ str "stream" ++ eol ++ text) = Ok ((TyStreamBegin, str "stream"), eol ++ text)).
  { rewrite skip_gap by exact Hg. apply tok_keyword; [cbn; tauto|]. cbn in Heol. destruct Heol as [<-|[<-|[]]]; cbn; tauto. }
  unfold read_stream_tail, peek_type_skip, expect_skip. rewrite Ht. cbn [rbind fst snd ttype_eqb].
  assert (Hr2 : read_token d (eol ++ text) = Ok ((TyEol, []), text)).
  { cbn in Heol. destruct Heol as [<-|[<-|[]]]; reflexivity. }
  rewrite Hr2. cbn [rbind fst ttype_eqb].
  assert (Hrec : recover_stream d m text = Ok (OStream (fixed_dict m n) (firstn n text), r)).
  { unfold recover_stream. rewrite Hscan. reflexivity. }
  assert (HL : all_bytes (str "Length")) by apply str_bytes.
  assert (Hsay : forall z, says_length len m z -> stream_length rl m = Ok (Some z)).
  { intros z [Hz|(i & v & Hz & Hz2)]; apply sm_find_in in Hz; auto; unfold stream_length; rewrite Hz; [reflexivity|]. rewrite (Hrl _ _ _ Hz2). reflexivity. }
  destruct Hd as [Hm|z Hz Hz2|z Hz Hz2|z before g2 w after Hz Hz2 Htext Hg2 Hne Hw Ha Hend].
  - assert (E : sm_find (str "Length") m = None).
    { destruct (sm_find (str "Length") m) as [v|] eqn:E; [|reflexivity]. exfalso. apply (Hm v). apply sm_find_in; assumption. }
    unfold stream_length. rewrite E. cbn [rbind]. exact Hrec.
  - rewrite (Hsay z Hz). cbn [rbind]. replace (z <? 0)%Z with true by lia. exact Hrec.
  - rewrite (Hsay z Hz). cbn [rbind]. replace (z <? 0)%Z with false by lia. rewrite skipn_beyond by exact Hz2. cbn [read_token_skip]. 
    change (read_token_skip d []) with (@Ok (token * bytes) ((TyEof, []), [])). cbn [rbind fst ttype_eqb]. exact Hrec.
  - rewrite (Hsay z Hz). cbn [rbind]. replace (z <? 0)%Z with false by lia.
    assert (Hsk : skipn (Z.to_nat z) text = g2 ++ w ++ after).
    { rewrite <- Hz2, Nat2Z.id, Htext, skipn_app, skipn_all, Nat.sub_diag. reflexivity. }
    rewrite Hsk, skip_gap by exact Hg2. destruct (word_not_end w after Hne Hw Ha Hend) as (tk & r' & E & Hty). rewrite E. cbn [rbind fst].
    destruct (ttype_eqb (fst tk) TyStreamEnd) eqn:E2; [|exact Hrec]. exfalso. apply Hty. destruct (fst tk); try discriminate; reflexivity.
Qed.

Lemma object_recovers : forall dt m g eol text r n, object_text dt (ODict m) -> gap g -> In eol [[10]; [13; 10]] -> damaged_length len m text ->
  scan_endstream d (S (List.length text)) text 0 text = Ok (n, r) ->
  exists m', parse_direct d rl (dt ++ g ++ str "stream" ++ eol ++ text) = Ok (OStream m' (firstn n text), r) /\ corrected m m' n.
Proof.
  intros dt m g eol text r n Hd Hg Heol Hdam Hscan.
  inversion Hd as [| | | | | | | | | |t es m' He Hc]; subst.
  assert (Hkeys := collect_keys t es He).
  destruct (collect_facts es m Hkeys Hc) as [Hsort Hok].
  exists (fixed_dict m n). split; [|eapply fixed_corrected; eassumption].
  unfold parse_direct.
  match goal with |- parse_obj _ _ ?F _ = _ => assert (Hf : exists f, F = S f /\ (List.length t + 1 < f)%nat);
    [exists (Nat.pred F); rewrite !app_length; cbn [List.length]; lia|] end.
  destruct Hf as (f & -> & Hf).
  rewrite <- !app_assoc. cbn [app].
  rewrite (parse_obj_dict _ _ _ _ (t ++ 62 :: 62 :: g ++ str "stream" ++ eol ++ text)) by (apply skip_of_read; [reflexivity|discriminate]).
  rewrite (proj2 (proj2 (reads_text rl)) t es He (g ++ str "stream" ++ eol ++ text) f [] Hf). cbn [rbind].
  rewrite (dict_content_collect es m Hkeys Hc).
  apply tail_recovers; auto.
Qed.
End Rec.

(** ** the search itself *)
Notation d := parser_dictionary.
Lemma peek_endobj : forall g3 rest, gap g3 -> token_ends rest -> exists ty, peek_type_skip d (g3 ++ str "endobj" ++ rest) = Ok ty.
Proof.
  intros g3 rest Hg Hr. unfold peek_type_skip. rewrite skip_gap by exact Hg. rewrite tok_keyword by (auto; cbn; tauto). eexists; reflexivity.
Qed.

Lemma line_end_data : forall data e2 more, In e2 [[10]; [13]; [13; 10]] -> (e2 = [10] -> forall x, data <> x ++ [13]) ->
  line_end_before (List.length data + List.length e2) (data ++ e2 ++ more) = List.length e2.
Proof.
  intros data e2 more He2 Hd.
  destruct (list_eq_dec N.eq_dec e2 [13; 10]) as [->|Hne].
  - cbn [List.length]. replace (List.length data + 2)%nat with (S (S (List.length data))) by lia. cbn [line_end_before].
    rewrite app_nth2 by lia. rewrite Nat.sub_diag. cbn [nth app]. rewrite app_nth2 by lia.
    replace (S (List.length data) - List.length data)%nat with 1%nat by lia. reflexivity.
  - assert (He : exists c, e2 = [c] /\ (c = 10 \/ c = 13)).
    { cbn in He2. destruct He2 as [<-|[<-|[<-|[]]]]; eauto. congruence. }
    destruct He as (c & -> & Hc). cbn [List.length].
    destruct (list_eq_dec N.eq_dec data []) as [->|Hdn]; [reflexivity|].
    destruct (exists_last Hdn) as (d0 & x & ->). rewrite app_length. cbn [List.length].
    replace (List.length d0 + 1 + 1)%nat with (S (S (List.length d0))) by lia. cbn [line_end_before].
    rewrite <- app_assoc. rewrite (app_nth2 d0 _ 0 (n := List.length d0)) by lia. rewrite (app_nth2 d0 _ 0 (n := S (List.length d0))) by lia.
    rewrite Nat.sub_diag. replace (S (List.length d0) - List.length d0)%nat with 1%nat by lia.
    cbn [nth app]. destruct (x =? 13) eqn:Ex.
    + apply N.eqb_eq in Ex. subst x. destruct Hc as [-> | ->]; [|reflexivity]. exfalso. apply (Hd eq_refl d0). reflexivity.
    + destruct Hc as [-> | ->]; reflexivity.
Qed.

Lemma readline_eol : forall l e more, no_eol l -> In e [[10]; [13; 10]] -> readline (l ++ e ++ more) = (l, more, false).
Proof.
  intros l e more Hl He. cbn in He. destruct He as [<-|[<-|[]]]; cbn [app]; [apply readline_line|apply readline_crlf]; exact Hl.
Qed.

Lemma W_no_eol : no_eol W.
Proof. unfold no_eol, W. repeat (constructor; [split; discriminate|]). constructor. Qed.

Lemma scan_own_line : forall data e2 e3 g3 rest, ~ occurs W data -> In e2 [[10]; [13]; [13; 10]] ->
  (e2 = [10] -> forall x, data <> x ++ [13]) -> In e3 [[10]; [13; 10]] -> gap g3 -> token_ends rest ->
  let after := e3 ++ g3 ++ str "endobj" ++ rest in
  let text := data ++ e2 ++ W ++ after in
  scan_endstream d (S (List.length text)) text 0 text = Ok (List.length data, after).
Proof.
  intros data e2 e3 g3 rest Hw He2 Hcr He3 Hg Hr after text.
  assert (Hfinal : forall f off, (1 <= f)%nat ->
    scan_endstream d f text off (W ++ after) = Ok ((off - line_end_before off text)%nat, after)).
  { intros f off Hf. destruct f as [|f]; [lia|]. cbn [scan_endstream]. unfold after at 1. rewrite readline_eol by (auto using W_no_eol).
    change (find_sub (str "endstream") W) with (Some O). destruct (peek_endobj g3 rest Hg Hr) as [ty ->]. cbn [rbind].
    unfold expect_skip. unfold W. rewrite tok_keyword; [reflexivity|cbn; tauto|].
    unfold after. cbn in He3. destruct He3 as [<-|[<-|[]]]; cbn; tauto. }
  destruct (list_eq_dec N.eq_dec e2 [10]) as [E10|E10].
  - (* the line feed ends the last line of the data *)
    assert (Hcr' := Hcr E10). subst e2.
    assert (G : forall k dd f pre, (List.length dd <= k)%nat -> (List.length dd + 2 <= f)%nat -> ~ occurs W dd -> (forall x, dd <> x ++ [13]) ->
      scan_endstream d f text pre (dd ++ [10] ++ W ++ after) = Ok ((pre + List.length dd + 1 - line_end_before (pre + List.length dd + 1) text)%nat, after)).
    { induction k as [|k IH]; intros dd f pre Hk Hf Hwd Hlast.
      - destruct dd; [|cbn in Hk; lia]. destruct f as [|f]; [lia|]. cbn [app scan_endstream readline]. cbn [N.eqb Pos.eqb].
        change (find_sub (str "endstream") []) with (@None nat). rewrite Hfinal by (cbn in Hf; lia). cbn [List.length].
        rewrite Nat.add_0_r. replace (S (List.length (W ++ after)) - List.length (W ++ after))%nat with 1%nat by lia. reflexivity.
      - destruct f as [|f]; [lia|]. cbn [scan_endstream].
        destruct (split_line dd) as [Hn|(l & c & t & -> & Hl & Hc)].
        + cbn [app]. rewrite readline_line by exact Hn. fold W. rewrite find_none by exact Hwd. rewrite Hfinal by lia.
          replace (List.length (dd ++ 10%N :: W ++ after) - List.length (W ++ after))%nat with (List.length dd + 1)%nat by (rewrite (app_length dd); cbn [List.length]; lia).
          rewrite Nat.add_assoc. reflexivity.
        + assert (Hwl : ~ occurs W l) by (apply (occurs_part W [] l (c :: t)); exact Hwd).
          assert (Ht : ~ occurs W t).
          { replace (l ++ c :: t) with ((l ++ [c]) ++ t ++ []) in Hwd by (rewrite <- app_assoc, app_nil_r; reflexivity). apply occurs_part in Hwd. exact Hwd. }
          assert (Hlt : forall x, t <> x ++ [13]).
          { intros x ->. apply (Hlast (l ++ c :: x)). rewrite <- app_assoc. reflexivity. }
          rewrite app_length in Hk, Hf. rewrite (app_length l). cbn [List.length] in Hk, Hf |- *.
          rewrite <- app_assoc. cbn [app].
          destruct Hc as [-> | ->].
          * rewrite readline_line by exact Hl. fold W. rewrite find_none by exact Hwl.
            replace (List.length (l ++ 10%N :: t ++ 10%N :: W ++ after) - List.length (t ++ 10%N :: W ++ after))%nat with (List.length l + 1)%nat
              by (rewrite (app_length l); cbn [List.length]; lia).
            change (t ++ 10 :: W ++ after) with (t ++ [10] ++ W ++ after). rewrite IH by (auto; lia).
            replace (pre + (List.length l + 1) + List.length t + 1)%nat with (pre + (List.length l + S (List.length t)) + 1)%nat by lia. reflexivity.
          * destruct t as [|x t]; [exfalso; apply (Hlast l); reflexivity|]. cbn [app].
            destruct (N.eq_dec x 10) as [->|Hx].
            -- rewrite readline_crlf by exact Hl. fold W. rewrite find_none by exact Hwl.
               replace (List.length (l ++ 13%N :: 10%N :: t ++ 10%N :: W ++ after) - List.length (t ++ 10%N :: W ++ after))%nat with (List.length l + 2)%nat
                 by (rewrite (app_length l); cbn [List.length]; lia).
               cbn [List.length] in Hk, Hf |- *. change (t ++ 10 :: W ++ after) with (t ++ [10] ++ W ++ after). rewrite IH; [|lia|lia| |].
               ++ replace (pre + (List.length l + 2) + List.length t + 1)%nat with (pre + (List.length l + S (S (List.length t))) + 1)%nat by lia. reflexivity.
               ++ intros (a & b & ->). apply Ht. exists (10 :: a), b. reflexivity.
               ++ intros y ->. apply (Hlt (10 :: y)). reflexivity.
            -- rewrite readline_cr_other by assumption. fold W. rewrite find_none by exact Hwl.
               replace (List.length (l ++ 13%N :: x :: t ++ 10%N :: W ++ after) - List.length (x :: t ++ 10%N :: W ++ after))%nat with (List.length l + 1)%nat
                 by (rewrite (app_length l); cbn [List.length]; lia).
               change (x :: t ++ 10 :: W ++ after) with ((x :: t) ++ [10] ++ W ++ after). rewrite IH by (auto; cbn [List.length] in *; lia).
               cbn [List.length]. replace (pre + (List.length l + 1) + S (List.length t) + 1)%nat with (pre + (List.length l + S (S (List.length t))) + 1)%nat by lia. reflexivity. }
    unfold text at 1 3. rewrite (G (List.length data)); [|lia|unfold text; rewrite !app_length; cbn [List.length]; lia|exact Hw|exact Hcr'].
    cbn [Nat.add]. change 1%nat with (List.length [10]). unfold text. rewrite line_end_data by auto. cbn [List.length]. f_equal. f_equal. lia.
  - assert (E13 : exists e', e2 = 13 :: e' /\ In e' [[]; [10]]).
    { cbn in He2. destruct He2 as [<-|[<-|[<-|[]]]]; [congruence| |]; eexists; (split; [reflexivity|cbn; tauto]). }
    destruct E13 as (e' & -> & He').
    unfold text at 1 3. rewrite (scan_data text ((13 :: e') ++ W ++ after) (fun off => Ok ((off + List.length (13%N :: e') - line_end_before (off + List.length (13%N :: e')) text)%nat, after)))
      with (k := List.length data); [| |exact I|lia|unfold text; rewrite !app_length; cbn [List.length]; lia|exact Hw].
    + cbn [Nat.add]. unfold text. rewrite line_end_data by auto. f_equal. f_equal. lia.
    + intros f l off Hf Hl Hwl. destruct f as [|f]; [lia|]. cbn [scan_endstream].
      assert (E : readline (l ++ (13 :: e') ++ W ++ after) = (l, W ++ after, false)).
      { cbn in He'. destruct He' as [<-|[<-|[]]]; cbn [app]; [change (W ++ after) with (101 :: tl (W ++ after)); apply readline_cr_other; [exact Hl|discriminate]|apply readline_crlf; exact Hl]. }
      rewrite E. fold W. rewrite find_none by exact Hwl. rewrite Hfinal by lia.
      replace (List.length (l ++ (13%N :: e') ++ W ++ after) - List.length (W ++ after))%nat with (List.length l + List.length (13%N :: e'))%nat
        by (rewrite (app_length l), (app_length (13%N :: e')); lia).
      rewrite Nat.add_assoc. reflexivity.
Qed.

Lemma scan_same_line : forall data x e3 g3 rest, ~ occurs W (data ++ [x]) -> x <> 10 -> x <> 13 ->
  In e3 [[10]; [13; 10]] -> gap g3 -> token_ends rest ->
  let text := (data ++ [x]) ++ W ++ e3 ++ g3 ++ str "endobj" ++ rest in
  scan_endstream d (S (List.length text)) text 0 text = Ok (List.length (data ++ [x]), g3 ++ str "endobj" ++ rest).
Proof.
  intros data x e3 g3 rest Hw H10 H13 He3 Hg Hr text.
  set (dat := data ++ [x]) in *.
  assert (G : forall k dd f pre, (List.length dd <= k)%nat -> (List.length dd + 2 <= f)%nat -> ~ occurs W (dd ++ [x]) ->
    scan_endstream d f text pre ((dd ++ [x]) ++ W ++ e3 ++ g3 ++ str "endobj" ++ rest) = Ok ((pre + List.length dd + 1)%nat, g3 ++ str "endobj" ++ rest)).
  { assert (Hbase : forall dd f pre, (1 <= f)%nat -> no_eol dd -> ~ occurs W (dd ++ [x]) ->
      scan_endstream d f text pre ((dd ++ [x]) ++ W ++ e3 ++ g3 ++ str "endobj" ++ rest) = Ok ((pre + List.length dd + 1)%nat, g3 ++ str "endobj" ++ rest)).
    { intros dd f pre Hf Hn Hwd. destruct f as [|f]; [lia|]. cbn [scan_endstream]. rewrite app_assoc. rewrite readline_eol; [| |exact He3].
      - fold W. rewrite find_end by exact Hwd. destruct (peek_endobj g3 rest Hg Hr) as [ty ->]. cbn [rbind]. rewrite app_length. cbn [List.length].
        replace (List.length dd + 1)%nat with (S (List.length dd)) by lia. f_equal. f_equal. lia.
      - apply Forall_app. split; [|apply W_no_eol]. apply Forall_app. split; [exact Hn|]. constructor; [split; assumption|constructor]. }
    induction k as [|k IH]; intros dd f pre Hk Hf Hwd.
    - destruct dd; [|cbn in Hk; lia]. apply Hbase; [lia|constructor|exact Hwd].
    - destruct (split_line dd) as [Hn|(l & c & t & -> & Hl & Hc)]; [apply Hbase; [lia|exact Hn|exact Hwd]|].
      destruct f as [|f]; [lia|].
      assert (Hwl : ~ occurs W l). { rewrite <- app_assoc in Hwd. apply (occurs_part W [] l ((c :: t) ++ [x])). exact Hwd. }
      assert (Ht : ~ occurs W (t ++ [x])).
      { replace ((l ++ c :: t) ++ [x]) with ((l ++ [c]) ++ (t ++ [x]) ++ []) in Hwd by (rewrite <- !app_assoc, app_nil_r; reflexivity). apply occurs_part in Hwd. exact Hwd. }
      rewrite app_length in Hk, Hf. rewrite (app_length l). cbn [List.length] in Hk, Hf |- *.
      replace (((l ++ c :: t) ++ [x]) ++ W ++ e3 ++ g3 ++ str "endobj" ++ rest) with (l ++ c :: ((t ++ [x]) ++ W ++ e3 ++ g3 ++ str "endobj" ++ rest))
        by (rewrite <- !app_assoc; reflexivity).
      cbn [scan_endstream].
      destruct Hc as [-> | ->].
      + rewrite readline_line by exact Hl. fold W. rewrite find_none by exact Hwl.
        match goal with |- context [(List.length (l ++ 10%N :: ?b) - List.length ?b)%nat] =>
          replace (List.length (l ++ 10%N :: b) - List.length b)%nat with (List.length l + 1)%nat by (rewrite (app_length l); cbn [List.length]; lia) end.
        rewrite IH by (auto; lia). f_equal. f_equal. lia.
      + destruct t as [|y t].
        * cbn [app]. rewrite readline_cr_other by assumption. fold W. rewrite find_none by exact Hwl.
          match goal with |- context [(List.length (l ++ 13%N :: ?b) - List.length ?b)%nat] =>
            replace (List.length (l ++ 13%N :: b) - List.length b)%nat with (List.length l + 1)%nat by (rewrite (app_length l); cbn [List.length]; lia) end.
          change (x :: W ++ e3 ++ g3 ++ str "endobj" ++ rest) with (([] ++ [x]) ++ W ++ e3 ++ g3 ++ str "endobj" ++ rest).
          rewrite IH; [|cbn; lia|cbn [List.length] in *; lia|exact Ht]. cbn [List.length]. f_equal. f_equal. lia.
        * destruct (N.eq_dec y 10) as [->|Hy].
          -- cbn [app]. rewrite readline_crlf by exact Hl. fold W. rewrite find_none by exact Hwl.
             match goal with |- context [(List.length (l ++ 13%N :: 10%N :: ?b) - List.length ?b)%nat] =>
               replace (List.length (l ++ 13%N :: 10%N :: b) - List.length b)%nat with (List.length l + 2)%nat by (rewrite (app_length l); cbn [List.length]; lia) end.
             rewrite IH; [cbn [List.length]; f_equal; f_equal; lia|cbn [List.length] in *; lia|cbn [List.length] in *; lia|].
             intros (a & b & E). apply Ht. exists (10 :: a), b. cbn [app]. rewrite E. reflexivity.
          -- cbn [app]. rewrite readline_cr_other by assumption. fold W. rewrite find_none by exact Hwl.
             match goal with |- context [(List.length (l ++ 13%N :: ?b) - List.length ?b)%nat] =>
               replace (List.length (l ++ 13%N :: b) - List.length b)%nat with (List.length l + 1)%nat by (rewrite (app_length l); cbn [List.length]; lia) end.
             match goal with |- scan_endstream _ _ _ _ (y :: ?b) = _ => change (y :: b) with (((y :: t) ++ [x]) ++ W ++ e3 ++ g3 ++ str "endobj" ++ rest) end.
             rewrite IH; [cbn [List.length]; f_equal; f_equal; lia|cbn [List.length] in *; lia|cbn [List.length] in *; lia|exact Ht]. }
  unfold text at 1 3. unfold dat. rewrite (G (List.length data)); [|lia|unfold text, dat; rewrite !app_length; cbn [List.length]; lia|exact Hw].
  rewrite app_length. reflexivity.
Qed.

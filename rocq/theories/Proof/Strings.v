(** Names and strings: reading every standard text gives what it denotes; the writer produces standard text. *)
From Coq Require Import List NArith ZArith Bool Lia String.
From Verif.Model Require Import Base Char Numbers Object Token.
From Verif.Spec Require Import Strings.
From Verif.Proof Require Import Tac Numbers.
Import ListNotations.
Local Open Scope N_scope.

(** ** Character classes agree with the standard's tables *)
Lemma is_white_spec : forall c, is_white c = true <-> In c pdf_white.
Proof. intros c. unfold is_white, pdf_white. cbn. lia. Qed.
Lemma is_delim_spec : forall c, is_delim c = true <-> In c pdf_delimiters.
Proof. intros c. unfold is_delim, pdf_delimiters. cbn. lia. Qed.
Lemma is_regular_spec : forall c, is_regular c = true <-> pdf_regular c.
Proof.
  intros c. unfold is_regular, pdf_regular.
  rewrite andb_true_iff, !negb_true_iff, <- is_white_spec, <- is_delim_spec.
  destruct (is_white c), (is_delim c); intuition congruence.
Qed.

Lemma token_ends_stop : forall rest, token_ends rest ->
  match rest with [] => True | c :: _ => is_regular c = false end.
Proof.
  intros [|c r] H; [exact I|]. unfold token_ends in H. unfold is_regular.
  rewrite <- is_white_spec, <- is_delim_spec in H.
  destruct (is_white c), (is_delim c); cbn; try reflexivity. intuition discriminate.
Qed.

(** ** Hexadecimal digits *)
Lemma hex_digit_val : forall h x, hex_digit h x -> digit_in 16 h = Some x /\ x < 16 /\ (is_numeric h || is_alpha h = true) /\
   is_white h = false /\ is_cspace h = false /\ h <> 45 /\ h <> 43 /\ h <> 62 /\ h <> 120 /\ h <> 88 /\ is_regular h = true.
Proof.
  intros h x H. destruct H as [v Hv|v Hv|v Hv];
  unfold digit_in, digit_val, is_numeric, is_alpha, is_white, is_cspace, is_regular, is_white, is_delim;
  repeat split; try lia;
  repeat match goal with |- context [?a && ?b] => first [replace (a && b) with true by lia | replace (a && b) with false by lia] end;
  cbn [orb];
  match goal with |- (if ?b then _ else None) = _ => replace b with true by lia end; f_equal; lia.
Qed.

Lemma stoi_hex_pair : forall h l x y, hex_digit h x -> hex_digit l y -> stoi 16 [h; l] = Ok (Z.of_N (16 * x + y)).
Proof.
  intros h l x y Hh Hl.
  destruct (hex_digit_val h x Hh) as (Dh & Bh & _ & _ & Sh & Mh & Ph & _ & _).
  destruct (hex_digit_val l y Hl) as (Dl & Bl & _ & _ & Sl & _ & _ & _ & Xl & Yl & _).
  unfold stoi, strtol. cbn [span]. rewrite Sh.
  assert (Hsg : (match [h; l] with 45 :: t => (true, t) | 43 :: t => (false, t) | _ => (false, [h; l]) end) = (false, [h; l])).
  { destruct h as [|p]; [reflexivity|]. do 6 (destruct p as [p|p|]; try reflexivity; try (exfalso; lia)). }
  rewrite Hsg.
  assert (Hsk : skip_0x 16 [h; l] = [h; l]).
  { unfold skip_0x. cbn [N.eqb]. replace (16 =? 16) with true by reflexivity.
    destruct h as [|p]; [reflexivity|]. do 6 (destruct p as [p|p|]; try reflexivity). }
  rewrite Hsk. cbn [take_digits]. rewrite Dh, Dl. unfold int32_min, int32_max.
  replace ((0 * 16 + x) * 16 + y) with (16 * x + y) by lia.
  match goal with |- (if ?b then _ else _) = _ => replace b with true by lia end. reflexivity.
Qed.

(** ** Names *)
Lemma read_name_text : forall txt n, name_text txt n -> forall rest, token_ends rest ->
  read_name (txt ++ rest) = Ok (n, rest).
Proof.
  intros txt n H. induction H as [|c txt n Hb Hc Hne Ht IH|h l x y txt n Hh Hl Ht IH]; intros rest Hr.
  - cbn [app]. apply token_ends_stop in Hr. destruct rest as [|c r]; [reflexivity|]. cbn. rewrite Hr. reflexivity.
  - cbn [app read_name]. apply is_regular_spec in Hc. rewrite Hc.
    replace (c =? 35) with false by lia. rewrite IH by exact Hr. reflexivity.
  - cbn [app read_name]. replace (is_regular 35) with true by reflexivity. cbn [N.eqb Pos.eqb].
    rewrite (stoi_hex_pair h l x y Hh Hl). cbn [rbind].
    destruct (hex_digit_val h x Hh) as (_ & Bx & _). destruct (hex_digit_val l y Hl) as (_ & By & _).
    rewrite to_uchar_byte by (unfold is_byte; lia). cbn [rbind]. rewrite IH by exact Hr. reflexivity.
Qed.

Definition hexval (c : N) : N := if c <=? 57 then c - 48 else if c <=? 70 then c - 55 else c - 87.
Lemma fmt_02X_hex : forall b, is_byte b -> exists h l x y, fmt_02X b = [h; l] /\ hex_digit h x /\ hex_digit l y /\ b = 16 * x + y.
Proof.
  intros b Hb.
  assert (H := sweep_byte (fun b => match fmt_02X b with
     | [h; l] => (h =? digit_char (b / 16)) && (l =? digit_char (b mod 16))
     | _ => false end) ltac:(vm_compute; reflexivity) b Hb). cbv beta in H.
  destruct (fmt_02X b) as [|h [|l [|? ?]]]; try discriminate.
  apply andb_true_iff in H. destruct H as [H1 H2]. apply N.eqb_eq in H1, H2. subst h l.
  exists (digit_char (b / 16)), (digit_char (b mod 16)), (b / 16), (b mod 16).
  unfold is_byte in Hb. unfold digit_char.
  repeat split.
  - destruct (b / 16 <? 10) eqn:E; constructor; lia.
  - destruct (b mod 16 <? 10) eqn:E; constructor; lia.
  - lia.
Qed.

Lemma name_char_shape : forall b, is_byte b ->
  (name_char b = [b] /\ pdf_regular b /\ b <> 35 /\ 33 <= b <= 126) \/ (name_char b = 35 :: fmt_02X b).
Proof.
  intros b Hb. unfold name_char.
  destruct (b =? 35) eqn:E1; [right; reflexivity|].
  destruct (is_regular_char b) eqn:E2; cbn [negb]; [|right; reflexivity].
  destruct ((schar b <? 33)%Z || (126 <? schar b)%Z) eqn:E3; [right; reflexivity|].
  left. unfold is_regular_char in E2. apply andb_true_iff in E2. destruct E2 as [E2 _].
  apply is_regular_spec in E2. unfold schar in E3. unfold is_byte in Hb.
  repeat split; try assumption; try (apply E2); try lia.
  - destruct (b <? 128) eqn:E; lia.
  - destruct (b <? 128) eqn:E; lia.
Qed.

Lemma name_text_app : forall t1 n1 t2 n2, name_text t1 n1 -> name_text t2 n2 -> name_text (t1 ++ t2) (n1 ++ n2).
Proof. intros t1 n1 t2 n2 H1 H2. induction H1; cbn; try constructor; auto. Qed.

Lemma name_to_string_text : forall n, all_bytes n -> name_text (name_to_string n) n.
Proof.
  induction n as [|b n IH]; intros Hn; [constructor|].
  inversion Hn as [|? ? Hb Hn']; subst. change (name_to_string (b :: n)) with (name_char b ++ name_to_string n).
  destruct (name_char_shape b Hb) as [(E & Hr & Hne & _)|E]; rewrite E; cbn [app].
  - constructor; auto.
  - destruct (fmt_02X_hex b Hb) as (h & l & x & y & E' & Hh & Hl & Hv). rewrite E'. cbn [app]. rewrite Hv.
    constructor; auto.
Qed.

Lemma name_to_string_regular : forall n, all_bytes n -> Forall (fun c => pdf_regular c /\ 33 <= c <= 126) (name_to_string n).
Proof.
  intros n Hn. unfold name_to_string. apply Forall_flat_map. eapply Forall_impl; [|exact Hn].
  intros b Hb. destruct (name_char_shape b Hb) as [(E & Hr & Hne & Hp)|E]; rewrite E.
  - constructor; [split; [exact Hr|lia]|constructor].
  - constructor; [split; [|lia]|].
    + split; cbn; lia.
    + destruct (fmt_02X_hex b Hb) as (h & l & x & y & E' & Hh & Hl & Hv). rewrite E'.
      assert (G : forall c v, hex_digit c v -> pdf_regular c /\ 33 <= c <= 126).
      { intros c v Hc. split.
        - apply is_regular_spec. destruct (hex_digit_val c v Hc) as (_ & _ & _ & _ & _ & _ & _ & _ & _ & _ & G). exact G.
        - inversion Hc; subst; lia. }
      constructor; [eapply G; eauto|constructor; [eapply G; eauto|constructor]].
Qed.

Lemma name_roundtrip : forall n rest, all_bytes n -> token_ends rest ->
  read_name (name_to_string n ++ rest) = Ok (n, rest).
Proof. intros n rest Hn Hr. apply read_name_text; [apply name_to_string_text; exact Hn|exact Hr]. Qed.

Lemma name_encoded_eq : forall s, name_create_from_encoded s = rmap fst (read_name s).
Proof.
  intros s. enough (H : forall k s, (List.length s <= k)%nat -> name_create_from_encoded s = rmap fst (read_name s)) by (apply (H (List.length s)); lia).
  clear s. induction k as [|k IH]; intros s Hs.
  - destruct s; [reflexivity|cbn in Hs; lia].
  - destruct s as [|c t]; [reflexivity|]. cbn in Hs.
    cbn [name_create_from_encoded read_name]. destruct (is_regular c); [|reflexivity].
    destruct (c =? 35).
    + destruct t as [|a [|b t']].
      * destruct (stoi 16 []) as [v| | |]; cbn; try reflexivity. destruct (to_uchar v); reflexivity.
      * destruct (stoi 16 [a]) as [v| | |]; cbn; try reflexivity. destruct (to_uchar v); reflexivity.
      * destruct (stoi 16 [a; b]) as [v| | |]; cbn [rbind rmap]; try reflexivity. destruct (to_uchar v); cbn; try reflexivity.
        rewrite IH by (cbn in Hs; lia). destruct (read_name t') as [[? ?]| | |]; reflexivity.
    + rewrite IH by lia. destruct (read_name t) as [[? ?]| | |]; reflexivity.
Qed.

(** ** Hexadecimal strings *)
Lemma read_hex_white : forall ws s, Forall (fun c => In c pdf_white) ws -> read_hex (ws ++ s) = read_hex s.
Proof.
  induction ws as [|c ws IH]; intros s H; [reflexivity|]. inversion H as [|? ? Hc Hws]; subst.
  cbn [app read_hex]. apply is_white_spec in Hc. rewrite Hc.
  replace (c =? 62) with false by (unfold is_white in Hc; lia). apply IH; assumption.
Qed.

Lemma read_hex_digit : forall h x s, hex_digit h x -> read_hex (h :: s) = do '(cs, rest) <- read_hex s;; Ok (h :: cs, rest).
Proof.
  intros h x s H. destruct (hex_digit_val h x H) as (_ & _ & Ha & Hw & _ & _ & _ & Hg & _).
  cbn [read_hex]. replace (h =? 62) with false by lia. rewrite Hw, Ha. reflexivity.
Qed.

(** the raw token of a hexadecimal text: its digits; decoding them gives the value *)
Lemma read_hex_text : forall txt v, hex_text txt v -> forall rest,
  exists raw, read_hex (txt ++ 62 :: rest) = Ok (raw, rest) /\ hex_decode raw = Ok v.
Proof.
  intros txt v H. induction H as [|c txt v Hc Ht IH|h ws l x y txt v Hh Hws Hl Ht IH|h ws x Hh Hws]; intros rest.
  - exists []. split; reflexivity.
  - destruct (IH rest) as (raw & Hr & Hd). exists raw. split; [|exact Hd].
    change ((c :: txt) ++ 62 :: rest) with ([c] ++ (txt ++ 62 :: rest)).
    rewrite read_hex_white by (constructor; [assumption|constructor]). exact Hr.
  - destruct (IH rest) as (raw & Hr & Hd). exists (h :: l :: raw).
    destruct (hex_digit_val h x Hh) as (_ & Bx & _). destruct (hex_digit_val l y Hl) as (_ & By & _).
    split.
    + cbn [app]. rewrite (read_hex_digit h x) by exact Hh. rewrite <- app_assoc. cbn [app].
      rewrite read_hex_white by exact Hws. rewrite (read_hex_digit l y) by exact Hl. rewrite Hr. reflexivity.
    + unfold hex_decode in *.
      replace (Nat.odd (List.length (h :: l :: raw))) with (Nat.odd (List.length raw)) by reflexivity.
      destruct (Nat.odd (List.length raw)); cbn [app hex_pairs]; rewrite (stoi_hex_pair h l x y Hh Hl); cbn [rbind];
        rewrite to_uchar_byte by (unfold is_byte; lia); cbn [rbind]; rewrite Hd; reflexivity.
  - exists [h]. destruct (hex_digit_val h x Hh) as (_ & Bx & _). split.
    + cbn [app]. rewrite (read_hex_digit h x) by exact Hh. rewrite read_hex_white by exact Hws. reflexivity.
    + unfold hex_decode. cbn [List.length Nat.odd Nat.even negb app hex_pairs].
      replace (Nat.odd 1) with true by reflexivity. cbn [hex_pairs].
      rewrite (stoi_hex_pair h 48 x 0 Hh ltac:(apply (hd_dec 0); lia)). cbn [rbind].
      rewrite to_uchar_byte by (unfold is_byte; lia). cbn [rbind]. rewrite N.add_0_r. reflexivity.
Qed.

Lemma hex_written_text : forall v, all_bytes v -> hex_text (flat_map fmt_02X v) v.
Proof.
  induction v as [|b v IH]; intros Hv; [constructor|]. inversion Hv as [|? ? Hb Hv']; subst.
  cbn [flat_map]. destruct (fmt_02X_hex b Hb) as (h & l & x & y & E & Hh & Hl & Hb'). rewrite E, Hb'.
  change (hex_text (h :: [] ++ l :: flat_map fmt_02X v) (16 * x + y :: v)).
  apply ht_pair; auto.
Qed.

(** ** Literal strings *)
Lemma octal_digit_facts : forall c v, octal_digit c v -> is_numeric c = true /\ digit_in 8 c = Some v /\ v < 8.
Proof.
  intros c v [E H]. subst c. unfold is_numeric, digit_in, digit_val, is_numeric.
  replace ((48 <=? 48 + v) && (48 + v <=? 57)) with true by lia.
  replace (48 + v - 48) with v by lia. replace (v <? 8) with true by lia. auto.
Qed.

Lemma literal_fuel_mono : forall f n s r, literal_decode_fuel f n s = Ok r ->
  forall g, (f <= g)%nat -> literal_decode_fuel g n s = Ok r.
Proof.
  induction f as [|f IH]; intros n s r H g Hg; [discriminate|].
  destruct g as [|g]; [lia|]. cbn [literal_decode_fuel] in *.
  assert (IH' : forall n s r, literal_decode_fuel f n s = Ok r -> literal_decode_fuel g n s = Ok r) by (intros; eapply IH; eauto; lia).
  clear IH.
  assert (B : forall n s (k : bytes -> res bytes) r,
    rbind (literal_decode_fuel f n s) k = Ok r -> rbind (literal_decode_fuel g n s) k = Ok r).
  { intros n0 s0 k r0 H0. apply rbind_ok in H0. destruct H0 as (a & Ha & Hk). rewrite (IH' _ _ _ Ha). exact Hk. }
  destruct s as [|c t]; [exact H|].
  destruct ((c =? 41) && _); [exact H|].
  destruct (c =? 13).
  { destruct t as [|e t']; [apply B; exact H|]. destruct (N.eq_dec e 10) as [->|Hne]; [apply B; exact H|].
    destruct e as [|p]; [apply B; exact H|]. do 4 (destruct p as [p|p|]; try (apply B; exact H)). all: try congruence; apply B; exact H. }
  destruct (negb (c =? 92)); [apply B; exact H|].
  destruct t as [|e t']; [exact H|].
  do 8 (match type of H with (if ?b then _ else _) = _ => destruct b; [apply B; exact H|] end).
  destruct (e =? 13).
  { destruct t' as [|q t'']; [apply IH'; exact H|]. destruct q as [|p]; [apply IH'; exact H|].
    do 4 (destruct p as [p|p|]; try (apply IH'; exact H)). }
  destruct (e =? 10); [apply IH'; exact H|].
  destruct (negb (is_numeric e)); [apply IH'; exact H|].
  destruct (take_numeric3 (e :: t')) as [oct t''].
  destruct (stoi 8 oct) as [v| | |]; try discriminate. cbn [rbind] in *.
  destruct (to_uchar v); try discriminate. cbn [rbind] in *. apply B; exact H.
Qed.

(** tokenizer: [read_literal] stops at the closing parenthesis at depth 1 and returns the raw text *)
Lemma read_literal_text : forall n txt v, literal_text n txt v -> forall rest,
  read_literal (N.of_nat n + 1) false (txt ++ 41 :: rest) = Ok (txt, rest).
Proof.
  assert (Hplain : forall k c s, c <> 40 -> c <> 41 -> c <> 92 ->
     read_literal k false (c :: s) = do '(cs, rest) <- read_literal k false s;; Ok (c :: cs, rest)).
  { intros k c s H1 H2 H3. cbn [read_literal]. replace (c =? 41) with false by lia. cbn [andb].
    replace (c =? 40) with false by lia. replace (c =? 92) with false by lia. reflexivity. }
  assert (Hbs : forall k c s, read_literal k false (92 :: c :: s) =
     do '(cs, rest) <- read_literal k false s;; Ok (92 :: c :: cs, rest)).
  { intros k c s. cbn [read_literal]. replace (92 =? 41) with false by reflexivity. cbn [andb].
    replace (92 =? 40) with false by reflexivity. replace (92 =? 92) with true by reflexivity.
    destruct (read_literal k false s) as [[? ?]| | |]; reflexivity. }
  intros n txt v H.
  induction H; intros rest; cbn [app] in *;
    try (rewrite Hbs, IHliteral_text; reflexivity).
  - reflexivity.
  - rewrite Hplain, IHliteral_text by assumption. reflexivity.
  - cbn [read_literal]. replace (40 =? 41) with false by reflexivity. cbn [andb].
    replace (40 =? 40) with true by reflexivity. replace (40 =? 92) with false by reflexivity.
    replace (N.of_nat n + 1 + 1) with (N.of_nat (S n) + 1) by lia. rewrite IHliteral_text. reflexivity.
  - cbn [read_literal]. replace (41 =? 41) with true by reflexivity.
    replace (N.of_nat (S n) + 1 =? 1) with false by lia. cbn [andb].
    replace (41 =? 40) with false by reflexivity. replace (41 =? 92) with false by reflexivity.
    replace (N.of_nat (S n) + 1 - 1) with (N.of_nat n + 1) by lia. rewrite IHliteral_text. reflexivity.
  - destruct H as [-> Hx], H0 as [-> Hy], H1 as [-> Hz].
    rewrite Hbs, !Hplain by lia. rewrite IHliteral_text. reflexivity.
  - destruct H as [-> Hx], H0 as [-> Hy]. rewrite Hbs, Hplain by lia. rewrite IHliteral_text. reflexivity.
  - rewrite Hbs, Hplain by lia. rewrite IHliteral_text. reflexivity.
Qed.

Lemma stoi_octal : forall l v, 
  (forall k, take_digits 8 l 0 O = (v, S k) -> v < 256 ->
   match l with [] => True | c :: _ => is_numeric c = true end -> stoi 8 l = Ok (Z.of_N v)).
Proof.
  intros l v k Ht Hv Hl. unfold stoi, strtol.
  destruct l as [|c t]; [discriminate|].
  assert (Hsp : span is_cspace (c :: t) = ([], c :: t)).
  { cbn. unfold is_cspace. unfold is_numeric in Hl.
    replace (((9 <=? c) && (c <=? 13)) || (c =? 32)) with false by lia. reflexivity. }
  rewrite Hsp.
  assert (Hsg : (match c :: t with 45 :: t => (true, t) | 43 :: t => (false, t) | _ => (false, c :: t) end) = (false, c :: t)).
  { unfold is_numeric in Hl. destruct c as [|p]; [reflexivity|]. do 6 (destruct p as [p|p|]; try reflexivity; try (exfalso; lia)). }
  rewrite Hsg. unfold skip_0x. replace (8 =? 16) with false by reflexivity. rewrite Ht.
  unfold int32_min, int32_max.
  match goal with |- (if ?b then _ else _) = _ => replace b with true by lia end. reflexivity.
Qed.

Lemma literal_decode_text : forall n txt v, literal_text n txt v ->
  exists f, (f <= S (List.length txt))%nat /\ literal_decode_fuel f (Z.of_nat n) txt = Ok v.
Proof.
  intros n txt v H. induction H.
  - exists 1%nat. split; [lia|reflexivity].
  - destruct IHliteral_text as [f [Lf Hf]]. exists (S f). split; [cbn [List.length]; lia|]. cbn [literal_decode_fuel].
    replace (c =? 40) with false by lia. replace (c =? 41) with false by lia. cbn [andb].
    replace (c =? 13) with false by lia. replace (c =? 92) with false by lia. cbn [negb]. rewrite Hf. reflexivity.
  - destruct IHliteral_text as [f [Lf Hf]]. exists (S f). split; [cbn [List.length]; lia|]. cbn [literal_decode_fuel].
    replace (40 =? 40) with true by reflexivity. replace (40 =? 41) with false by reflexivity. cbn [andb].
    replace (40 =? 13) with false by reflexivity. replace (negb (40 =? 92)) with true by reflexivity.
    replace (Z.of_nat n + 1)%Z with (Z.of_nat (S n)) by lia. rewrite Hf. reflexivity.
  - destruct IHliteral_text as [f [Lf Hf]]. exists (S f). split; [cbn [List.length]; lia|]. cbn [literal_decode_fuel].
    replace (41 =? 40) with false by reflexivity. replace (41 =? 41) with true by reflexivity. cbn [andb].
    replace (Z.of_nat (S n) - 1 <? 0)%Z with false by lia.
    replace (41 =? 13) with false by reflexivity. replace (negb (41 =? 92)) with true by reflexivity.
    replace (Z.of_nat (S n) - 1)%Z with (Z.of_nat n) by lia. rewrite Hf. reflexivity.
  - destruct IHliteral_text as [f [Lf Hf]]. exists (S f). split; [cbn [List.length]; lia|].
    cbn in H. repeat (destruct H as [H|H]; [inversion H; subst; cbn [literal_decode_fuel]; cbn [N.eqb Pos.eqb andb negb]; rewrite Hf; reflexivity|]). destruct H.
  - destruct IHliteral_text as [f [Lf Hf]]. exists (S f). split; [cbn [List.length]; lia|].
    destruct (octal_digit_facts a x H) as (Na & Da & Bx). destruct (octal_digit_facts b y H0) as (Nb & Db & By).
    destruct (octal_digit_facts c z H1) as (Nc & Dc & Bz).
    cbn [literal_decode_fuel]. cbn [N.eqb Pos.eqb andb negb].
    assert (Na' := Na). unfold is_numeric in Na'.
    do 10 (match goal with |- (if ?q =? ?k then _ else _) = _ => replace (q =? k) with false by lia end).
    rewrite Na. cbn [negb]. unfold take_numeric3. rewrite Na, Nb, Nc.
    rewrite (stoi_octal _ (64 * x + 8 * y + z) 2%nat); [|cbn [take_digits]; rewrite Da, Db, Dc; f_equal; lia|assumption|exact Na].
    cbn [rbind]. rewrite to_uchar_byte by assumption. cbn [rbind]. rewrite Hf. reflexivity.
  - destruct IHliteral_text as [f [Lf Hf]]. exists (S f). split; [cbn [List.length]; lia|].
    destruct (octal_digit_facts a x H) as (Na & Da & Bx). destruct (octal_digit_facts b y H0) as (Nb & Db & By).
    cbn [literal_decode_fuel]. cbn [N.eqb Pos.eqb andb negb].
    assert (Na' := Na). unfold is_numeric in Na'.
    do 10 (match goal with |- (if ?q =? ?k then _ else _) = _ => replace (q =? k) with false by lia end).
    rewrite Na. cbn [negb].
    assert (Ht : take_numeric3 (a :: b :: txt) = ([a; b], txt)).
    { unfold take_numeric3. rewrite Na, Nb. destruct txt as [|c t]; [reflexivity|].
      cbn in H1. unfold is_numeric. replace ((48 <=? c) && (c <=? 57)) with false by lia. reflexivity. }
    rewrite Ht.
    rewrite (stoi_octal _ (8 * x + y) 1%nat); [|cbn [take_digits]; rewrite Da, Db; f_equal; lia|lia|exact Na].
    cbn [rbind]. rewrite to_uchar_byte by (unfold is_byte; lia). cbn [rbind]. rewrite Hf. reflexivity.
  - destruct IHliteral_text as [f [Lf Hf]]. exists (S f). split; [cbn [List.length]; lia|].
    destruct (octal_digit_facts a x H) as (Na & Da & Bx).
    cbn [literal_decode_fuel]. cbn [N.eqb Pos.eqb andb negb].
    assert (Na' := Na). unfold is_numeric in Na'.
    do 10 (match goal with |- (if ?q =? ?k then _ else _) = _ => replace (q =? k) with false by lia end).
    rewrite Na. cbn [negb].
    assert (Ht : take_numeric3 (a :: txt) = ([a], txt)).
    { unfold take_numeric3. rewrite Na. destruct txt as [|c t]; [reflexivity|].
      cbn in H0. unfold is_numeric. replace ((48 <=? c) && (c <=? 57)) with false by lia. reflexivity. }
    rewrite Ht.
    rewrite (stoi_octal _ x 0%nat); [|cbn [take_digits]; rewrite Da; f_equal; lia|lia|exact Na].
    cbn [rbind]. rewrite to_uchar_byte by (unfold is_byte; lia). cbn [rbind]. rewrite Hf. reflexivity.
  - destruct IHliteral_text as [f [Lf Hf]]. exists (S f). split; [cbn [List.length]; lia|]. cbn [literal_decode_fuel]. cbn [N.eqb Pos.eqb andb negb]. exact Hf.
  - destruct IHliteral_text as [f [Lf Hf]]. exists (S f). split; [cbn [List.length]; lia|]. cbn [literal_decode_fuel]. cbn [N.eqb Pos.eqb andb negb]. exact Hf.
  - destruct IHliteral_text as [f [Lf Hf]]. exists (S f). split; [cbn [List.length]; lia|]. cbn [literal_decode_fuel]. cbn [N.eqb Pos.eqb andb negb].
    destruct txt as [|q t]; [exact Hf|]. destruct q as [|p]; [exact Hf|].
    do 4 (destruct p as [p|p|]; try exact Hf). destruct H.
  - destruct IHliteral_text as [f [Lf Hf]]. exists (S (S f)). split; [cbn [List.length]; lia|].
    cbn in H0.
    change (literal_decode_fuel (S (S f)) (Z.of_nat n) (92 :: c :: txt)) with
      (let g := S f in let nested := Z.of_nat n in literal_decode_fuel (S g) nested (92 :: c :: txt)). cbv zeta.
    cbn [literal_decode_fuel]. cbn [N.eqb Pos.eqb andb negb].
    do 10 (match goal with |- (if ?q =? ?k then _ else _) = _ => replace (q =? k) with false by (symmetry; apply N.eqb_neq; intuition congruence) end).
    replace (is_numeric c) with false by (unfold is_numeric; lia). cbn [negb].
    replace (c =? 40) with false by (symmetry; apply N.eqb_neq; intuition congruence).
    replace (c =? 41) with false by (symmetry; apply N.eqb_neq; intuition congruence). cbn [andb].
    replace (c =? 13) with false by lia.
    replace (c =? 92) with false by (symmetry; apply N.eqb_neq; intuition congruence). cbn [negb]. rewrite Hf. reflexivity.
Qed.

Lemma take_numeric3_len : forall s oct t, take_numeric3 s = (oct, t) -> (List.length t <= List.length s)%nat /\
  (match s with c :: _ => is_numeric c = true -> (List.length t < List.length s)%nat | [] => True end).
Proof.
  intros s oct t H. unfold take_numeric3 in H.
  destruct s as [|a [|b [|c s]]]; repeat cif_in H; inversion H; subst; cbn; split; try lia; intros; try congruence.
Qed.

Lemma literal_fuel_enough : forall f n s, (List.length s < f)%nat -> literal_decode_fuel f n s <> NoFuel.
Proof.
  induction f as [|f IH]; intros n s Hs; [lia|]. cbn [literal_decode_fuel].
  assert (B : forall n s (k : bytes -> bytes), (List.length s < f)%nat -> rbind (literal_decode_fuel f n s) (fun r => Ok (k r)) <> NoFuel).
  { intros n0 s0 k H0. apply rbind_nofuel; [apply IH; exact H0|discriminate]. }
  destruct s as [|c t]; [cif; discriminate|]. cbn [List.length] in Hs.
  destruct ((c =? 41) && _); [discriminate|].
  destruct (c =? 13).
  { destruct t as [|e t']; [apply B; cbn in *; lia|]. cbn in Hs. destruct e as [|p]; [apply B; cbn; lia|].
    do 4 (destruct p as [p|p|]; try (apply B; cbn; lia)). }
  destruct (negb (c =? 92)); [apply B; lia|].
  destruct t as [|e t']; [cif; discriminate|]. cbn [List.length] in Hs.
  do 8 (match goal with |- (if ?b then _ else _) <> _ => destruct b; [apply B; lia|] end).
  destruct (e =? 13).
  { destruct t' as [|q t'']; [apply IH; cbn; lia|]. cbn in Hs. destruct q as [|p]; [apply IH; cbn; lia|].
    do 4 (destruct p as [p|p|]; try (apply IH; cbn; lia)). }
  destruct (e =? 10); [apply IH; lia|].
  destruct (is_numeric e) eqn:En; cbn [negb]; [|apply IH; cbn; lia].
  destruct (take_numeric3 (e :: t')) as [oct t''] eqn:E3.
  apply take_numeric3_len in E3. destruct E3 as [_ E3]. specialize (E3 En). cbn in E3.
  apply rbind_nofuel. { unfold stoi. destruct (strtol 8 oct); [cif; discriminate|discriminate]. }
  intros v _. apply rbind_nofuel. { unfold to_uchar. cif; [discriminate|cif; discriminate]. }
  intros ch _. apply B. lia.
Qed.

Lemma literal_decode_of : forall txt v, literal_text 0 txt v -> literal_decode txt = Ok v.
Proof.
  intros txt v H. apply literal_decode_text in H. destruct H as (f & Lf & Hf). unfold literal_decode.
  exact (literal_fuel_mono f _ _ _ Hf _ Lf).
Qed.

Lemma literal_decode_total : forall raw, literal_decode raw <> NoFuel.
Proof. intros raw. apply literal_fuel_enough. lia. Qed.

Lemma literal_char_shape : forall b, is_byte b ->
  (literal_char b = [b] /\ b <> 40 /\ b <> 41 /\ b <> 92 /\ b <> 13) \/
  (exists e, literal_char b = [92; e] /\ In (e, b) escape_table) \/
  (exists x y z, literal_char b = [92; 48 + x; 48 + y; 48 + z] /\ x < 8 /\ y < 8 /\ z < 8 /\ b = 64 * x + 8 * y + z).
Proof.
  intros b Hb. unfold literal_char.
  destruct (b =? 10) eqn:E1; [apply N.eqb_eq in E1; subst; right; left; eexists; split; [reflexivity|cbn; tauto]|].
  destruct (b =? 13) eqn:E2; [apply N.eqb_eq in E2; subst; right; left; eexists; split; [reflexivity|cbn; tauto]|].
  destruct (b =? 9) eqn:E3; [apply N.eqb_eq in E3; subst; right; left; eexists; split; [reflexivity|cbn; tauto]|].
  destruct (b =? 8) eqn:E4; [apply N.eqb_eq in E4; subst; right; left; eexists; split; [reflexivity|cbn; tauto]|].
  destruct (b =? 12) eqn:E5; [apply N.eqb_eq in E5; subst; right; left; eexists; split; [reflexivity|cbn; tauto]|].
  destruct (b =? 40) eqn:E6; [apply N.eqb_eq in E6; subst; right; left; eexists; split; [reflexivity|cbn; tauto]|].
  destruct (b =? 41) eqn:E7; [apply N.eqb_eq in E7; subst; right; left; eexists; split; [reflexivity|cbn; tauto]|].
  destruct (b =? 92) eqn:E8; [apply N.eqb_eq in E8; subst; right; left; eexists; split; [reflexivity|cbn; tauto]|].
  destruct (is_print b); cbn [negb]; [left; repeat split; lia|]. right; right.
  assert (H := sweep_byte (fun b => bytes_eqb (fmt_03o b) [48 + b / 64; 48 + b / 8 mod 8; 48 + b mod 8])
     ltac:(vm_compute; reflexivity) b Hb). cbv beta in H.
  exists (b / 64), (b / 8 mod 8), (b mod 8). unfold is_byte in Hb.
  split; [|repeat split; try lia].
  clear - H. destruct (fmt_03o b) as [|p [|q [|r [|? ?]]]]; cbn [bytes_eqb] in H; rewrite ?andb_false_r in H; try discriminate.
  rewrite !andb_true_iff, !N.eqb_eq in H. destruct H as (-> & -> & -> & _). reflexivity.
Qed.

Lemma literal_written_text : forall v, all_bytes v -> literal_text 0 (flat_map literal_char v) v.
Proof.
  induction v as [|b v IH]; intros Hv; [constructor|]. inversion Hv as [|? ? Hb Hv']; subst.
  cbn [flat_map]. destruct (literal_char_shape b Hb) as [(E & H1 & H2 & H3 & H4)|[(e & E & He)|(x & y & z & E & Hx & Hy & Hz & Eb)]]; rewrite E; cbn [app].
  - constructor; auto.
  - constructor; auto.
  - rewrite Eb. apply lt_octal3; auto; try (split; [reflexivity|assumption]). rewrite <- Eb. exact Hb.
Qed.

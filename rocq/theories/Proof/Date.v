(** Lemmas about Model/Date.v: what the regular expression matches. *)
From Coq Require Import List NArith ZArith Bool Lia String.
From Coq Require Import List.
From Verif.Model Require Import Base Date.
From Verif.Spec Require Import Date.
From Verif.Proof Require Import Tac.
Import ListNotations.
Local Open Scope N_scope.

Definition dig (c : N) : bool := (48 <=? c) && (c <=? 57).
Lemma dig_spec : forall c, dig c = true <-> dec_digit c.
Proof. intros c. unfold dig, dec_digit. rewrite andb_true_iff, !N.leb_le. tauto. Qed.

Lemma taken0 : forall (t : bytes), firstn (List.length t - List.length t) t = [].
Proof. intros t. now rewrite PeanoNat.Nat.sub_diag. Qed.
Lemma taken : forall (p t : bytes), firstn (List.length (p ++ t) - List.length t) (p ++ t) = p.
Proof.
  intros p t. rewrite app_length. replace (List.length p + List.length t - List.length t)%nat with (List.length p) by lia.
  rewrite firstn_app, firstn_all, PeanoNat.Nat.sub_diag. cbn [firstn]. apply app_nil_r.
Qed.
Lemma taken1 : forall a (t : bytes), firstn (List.length (a :: t) - List.length t) (a :: t) = [a].
Proof. intros a t. apply (taken [a]). Qed.
Lemma taken2 : forall a b (t : bytes), firstn (List.length (a :: b :: t) - List.length t) (a :: b :: t) = [a; b].
Proof. intros a b t. apply (taken [a; b]). Qed.
Lemma taken4 : forall a b c d (t : bytes), firstn (List.length (a :: b :: c :: d :: t) - List.length t) (a :: b :: c :: d :: t) = [a; b; c; d].
Proof. intros a b c d t. apply (taken [a; b; c; d]). Qed.

Lemma seq_eq : forall a b s caps, ways (RSeq a b) s caps = flat_map (fun '(t, c) => ways b t c) (ways a s caps).
Proof. reflexivity. Qed.
Lemma two_ways : forall s caps, ways two_digits s caps =
  match s with a :: b :: t => if dig a && dig b then [(t, caps)] else [] | _ => [] end.
Proof.
  intros s caps. unfold two_digits. rewrite seq_eq. destruct s as [|a s]; [reflexivity|]. cbn [ways digit_re]. fold (dig a).
  destruct (dig a); cbn [flat_map andb]; [|destruct s; reflexivity]. destruct s as [|b s]; [reflexivity|]. fold (dig b). destruct (dig b); reflexivity.
Qed.
Lemma field_ways : forall n R s caps, ways (RSeq (field_re n) R) s caps =
  match s with
  | [] => ways R [] ((n, []) :: caps)
  | [a] => if dig a then ways R [] ((n, [a]) :: caps) else []
  | a :: b :: t => if dig a && dig b then ways R t ((n, [a; b]) :: caps) else []
  end.
Proof.
  intros n R s caps. rewrite seq_eq. unfold field_re. cbn [ways]. fold two_digits. rewrite two_ways.
  destruct s as [|a [|b t]].
  - cbn. now rewrite app_nil_r.
  - cbn [ways digit_re]. fold (dig a). destruct (dig a); cbn; [now rewrite app_nil_r|reflexivity].
  - cbn [ways digit_re]. fold (dig a). fold (dig b). destruct (dig a); cbn [flat_map app map andb]; [|reflexivity].
    destruct (dig b); cbn [flat_map app map]; [|reflexivity]. rewrite taken2. now rewrite app_nil_r.
Qed.
Lemma offset_ways : forall n R s caps, ways (RSeq (offset_re n) R) s caps =
  match s with
  | [] => ways R [] ((n, []) :: caps)
  | [a] => []
  | a :: b :: t => if dig a && dig b then ways R t ((n, [a; b]) :: caps) else []
  end.
Proof.
  intros n R s caps. rewrite seq_eq. unfold offset_re. cbn [ways]. fold two_digits. rewrite two_ways.
  destruct s as [|a [|b t]].
  - cbn. now rewrite app_nil_r.
  - reflexivity.
  - destruct (dig a && dig b); cbn [flat_map app map]; [|reflexivity]. rewrite taken2. now rewrite app_nil_r.
Qed.
Lemma apostrophe_ways : forall R s caps, ways (RSeq apostrophe_re R) s caps =
  (match s with c :: t => if 39 =? c then ways R t caps else [] | [] => [] end) ++ ways R s caps.
Proof.
  intros R s caps. rewrite seq_eq. unfold apostrophe_re, is_char. cbn [ways]. destruct s as [|c t]; [cbn; apply app_nil_r|].
  destruct (39 =? c); cbn [app flat_map]; now rewrite app_nil_r.
Qed.
Definition is_sign (c : N) : bool := (c =? 90) || (c =? 43) || (c =? 45).
Lemma sign_ways : forall R s caps, ways (RSeq (RGroup 7 (RAlt sign_re REnd)) R) s caps =
  match s with
  | [] => ways R [] ((7%nat, []) :: caps)
  | c :: t => if is_sign c then ways R t ((7%nat, [c]) :: caps) else []
  end.
Proof.
  intros R s caps. rewrite seq_eq. cbn [ways sign_re]. destruct s as [|c t]; [cbn; now rewrite app_nil_r|].
  fold (is_sign c). destruct (is_sign c); cbn [app map flat_map]; [|reflexivity]. rewrite taken1. now rewrite app_nil_r.
Qed.
Lemma year_ways : forall R s caps, ways (RSeq (RGroup 1 (RSeq two_digits two_digits)) R) s caps =
  match s with
  | a :: b :: c :: d :: t => if dig a && dig b && (dig c && dig d) then ways R t ((1%nat, [a; b; c; d]) :: caps) else []
  | _ => []
  end.
Proof.
  intros R s caps. rewrite seq_eq. cbn [ways]. fold two_digits. rewrite two_ways.
  destruct s as [|a [|b [|c [|d t]]]]; try reflexivity.
  - destruct (dig a && dig b); [|reflexivity]. cbn [flat_map]. fold two_digits. rewrite two_ways. reflexivity.
  - destruct (dig a && dig b); [|reflexivity]. cbn [flat_map]. fold two_digits. rewrite two_ways. reflexivity.
  - destruct (dig a && dig b); [|reflexivity]. cbn [flat_map andb]. rewrite two_ways.
    destruct (dig c && dig d); [|reflexivity]. cbn [app map flat_map]. rewrite taken4. now rewrite app_nil_r.
Qed.

Fixpoint fields_re (k n : nat) (R : regex) : regex :=
  match k with O => R | S k' => RSeq (field_re n) (fields_re k' (S n) R) end.
Definition tail_re : regex :=
  RSeq (RGroup 7 (RAlt sign_re REnd)) (RSeq (offset_re 8) (RSeq apostrophe_re (RSeq (offset_re 9) (RSeq apostrophe_re REnd)))).
Lemma date_re_eq : date_re = RSeq (ROpt (RSeq (is_char 68) (is_char 58))) (RSeq (RGroup 1 (RSeq two_digits two_digits)) (fields_re 5 2 tail_re)).
Proof. reflexivity. Qed.

Fixpoint scan_fields (k : nat) (s : bytes) : option (list bytes * bytes) :=
  match k with
  | O => Some ([], s)
  | S k' =>
      match s with
      | [] => option_map (fun '(l, r) => ([] :: l, r)) (scan_fields k' [])
      | [a] => if dig a then option_map (fun '(l, r) => ([a] :: l, r)) (scan_fields k' []) else None
      | a :: b :: t => if dig a && dig b then option_map (fun '(l, r) => ([a; b] :: l, r)) (scan_fields k' t) else None
      end
  end.
Fixpoint numbered (n : nat) (l : list bytes) (caps : captures) : captures :=
  match l with [] => caps | s :: t => numbered (S n) t ((n, s) :: caps) end.
Lemma fields_ways : forall k n R s caps, ways (fields_re k n R) s caps =
  match scan_fields k s with Some (l, r) => ways R r (numbered n l caps) | None => [] end.
Proof.
  induction k as [|k IH]; intros n R s caps; [reflexivity|]. cbn [fields_re scan_fields]. rewrite field_ways.
  destruct s as [|a [|b t]].
  - rewrite IH. destruct (scan_fields k []) as [[l r]|]; reflexivity.
  - destruct (dig a); [|reflexivity]. rewrite IH. destruct (scan_fields k []) as [[l r]|]; reflexivity.
  - destruct (dig a && dig b); [|reflexivity]. rewrite IH. destruct (scan_fields k t) as [[l r]|]; reflexivity.
Qed.

(** after the minutes: at most one apostrophe *)
Definition ends (s : bytes) : bool := match s with [] => true | [c] => 39 =? c | _ => false end.
Definition scan_minutes (s : bytes) : option bytes :=
  match s with
  | [] => Some []
  | a :: b :: t => if dig a && dig b && ends t then Some [a; b] else None
  | _ => None
  end.
Definition scan_hours (s : bytes) : option (bytes * bytes) :=
  match s with
  | [] => Some ([], [])
  | a :: b :: t =>
      if dig a && dig b then
        match t with
        | c :: t' => if 39 =? c then option_map (fun m => ([a; b], m)) (scan_minutes t') else option_map (fun m => ([a; b], m)) (scan_minutes t)
        | [] => Some ([a; b], [])
        end
      else None
  | _ => None
  end.
Definition scan_tail (s : bytes) : option (bytes * bytes * bytes) :=
  match s with
  | [] => Some ([], [], [])
  | c :: t => if is_sign c then option_map (fun '(h, m) => ([c], h, m)) (scan_hours t) else None
  end.
Lemma end_ways : forall s caps, ways (RSeq apostrophe_re REnd) s caps = if ends s then [([], caps)] else [].
Proof.
  intros s caps. rewrite apostrophe_ways. destruct s as [|c [|d t]]; cbn [ways ends app]; [reflexivity| |].
  - destruct (39 =? c); reflexivity.
  - destruct (39 =? c); reflexivity.
Qed.
Lemma minutes_ways : forall s caps, ways (RSeq (offset_re 9) (RSeq apostrophe_re REnd)) s caps =
  match scan_minutes s with Some m => [([], (9%nat, m) :: caps)] | None => [] end.
Proof.
  intros s caps. rewrite offset_ways. destruct s as [|a [|b t]]; [reflexivity|reflexivity|]. cbn [scan_minutes].
  destruct (dig a && dig b); [|reflexivity]. cbn [andb]. rewrite end_ways. destruct (ends t); reflexivity.
Qed.
Lemma not_dig_39 : forall c, 39 =? c = true -> dig c = false.
Proof. intros c H. apply N.eqb_eq in H. subst. reflexivity. Qed.
Lemma tail_ways : forall s caps, ways tail_re s caps =
  match scan_tail s with Some (sg, h, m) => [([], (9%nat, m) :: (8%nat, h) :: (7%nat, sg) :: caps)] | None => [] end.
Proof.
  intros s caps. unfold tail_re. rewrite sign_ways. destruct s as [|c t]; [reflexivity|]. cbn [scan_tail].
  destruct (is_sign c); [|reflexivity]. rewrite offset_ways. destruct t as [|a [|b t]]; [reflexivity|reflexivity|]. cbn [scan_hours].
  destruct (dig a && dig b); [|reflexivity]. rewrite apostrophe_ways. destruct t as [|q t]; [reflexivity|].
  destruct (39 =? q) eqn:E.
  - rewrite !minutes_ways. assert (Hn : scan_minutes (q :: t) = None).
    { destruct t; [reflexivity|]. cbn [scan_minutes]. now rewrite (not_dig_39 q E). }
    rewrite Hn, app_nil_r. destruct (scan_minutes t); reflexivity.
  - cbn [app]. rewrite minutes_ways. destruct (scan_minutes (q :: t)); reflexivity.
Qed.

Definition strip_header (s : bytes) : bytes :=
  match s with a :: b :: t => if (68 =? a) && (58 =? b) then t else s | _ => s end.
Definition scan (s : bytes) : option (bytes * list bytes * (bytes * bytes * bytes)) :=
  match strip_header s with
  | a :: b :: c :: d :: t =>
      if dig a && dig b && (dig c && dig d) then
        match scan_fields 5 t with
        | Some (l, r) => option_map (fun x => ([a; b; c; d], l, x)) (scan_tail r)
        | None => None
        end
      else None
  | _ => None
  end.
Definition caps_of (y : bytes) (l : list bytes) (sg h m : bytes) : captures :=
  (9%nat, m) :: (8%nat, h) :: (7%nat, sg) :: numbered 2 l [(1%nat, y)].

Definition body_re : regex := RSeq (RGroup 1 (RSeq two_digits two_digits)) (fields_re 5 2 tail_re).
Definition scan_body (s : bytes) : option (bytes * list bytes * (bytes * bytes * bytes)) :=
  match s with
  | a :: b :: c :: d :: t =>
      if dig a && dig b && (dig c && dig d) then
        match scan_fields 5 t with
        | Some (l, r) => option_map (fun x => ([a; b; c; d], l, x)) (scan_tail r)
        | None => None
        end
      else None
  | _ => None
  end.
Lemma body_ways : forall s, ways body_re s [] =
  match scan_body s with Some (y, l, (sg, h, m)) => [([], caps_of y l sg h m)] | None => [] end.
Proof.
  intros s. unfold body_re. rewrite year_ways. destruct s as [|a [|b [|c [|d t]]]]; try reflexivity. cbn [scan_body].
  destruct (dig a && dig b && (dig c && dig d)); [|reflexivity]. rewrite fields_ways. destruct (scan_fields 5 t) as [[l r]|]; [|reflexivity].
  rewrite tail_ways. destruct (scan_tail r) as [[[sg h] m]|]; reflexivity.
Qed.
Lemma body_not_D : forall t, scan_body (68 :: t) = None.
Proof. intros t. destruct t as [|b [|c [|d t]]]; reflexivity. Qed.
Lemma match_scan : forall s, regex_match date_re s = match scan s with Some (y, l, (sg, h, m)) => Some (caps_of y l sg h m) | None => None end.
Proof.
  intros s. unfold regex_match. rewrite date_re_eq. fold body_re. rewrite seq_eq.
  assert (Hs : scan s = scan_body (strip_header s)) by reflexivity. rewrite Hs.
  assert (Hw : flat_map (fun '(t, c) => ways body_re t c) (ways (ROpt (RSeq (is_char 68) (is_char 58))) s []) =
    match scan_body (strip_header s) with Some (y, l, (sg, h, m)) => [([], caps_of y l sg h m)] | None => [] end).
  { unfold is_char. cbn [ways]. destruct s as [|a s]; [reflexivity|]. destruct (68 =? a) eqn:Ea.
    - apply N.eqb_eq in Ea. subst a. cbn [flat_map]. destruct s as [|b t].
      + cbn [app flat_map]. rewrite body_ways. cbn. reflexivity.
      + destruct (58 =? b) eqn:Eb.
        * cbn [app flat_map]. rewrite !body_ways, body_not_D. cbn [app]. rewrite app_nil_r. unfold strip_header.
          rewrite Eb. reflexivity.
        * cbn [app flat_map]. rewrite body_ways. rewrite app_nil_r. unfold strip_header. rewrite Eb. reflexivity.
    - cbn [app flat_map]. rewrite body_ways, app_nil_r. unfold strip_header. rewrite Ea. cbn [andb]. destruct s; reflexivity. }
  rewrite Hw. destruct (scan_body (strip_header s)) as [[[y l] [[sg h] m]]|]; reflexivity.
Qed.

(** values *)
Definition val_or (s : bytes) (default : Z) : Z := match s with [] => default | _ => digits_value s end.
Lemma digits_two : forall a b, digits_value [a; b] = pair_val a b.
Proof. intros. unfold digits_value, pair_val, digit_val. cbn [fold_left]. lia. Qed.
Lemma digits_one : forall a, digits_value [a] = digit_val a.
Proof. intros. unfold digits_value, digit_val. cbn [fold_left]. lia. Qed.
Lemma digits_four : forall a b c d, digits_value [a; b; c; d] = (100 * pair_val a b + pair_val c d)%Z.
Proof. intros. unfold digits_value, pair_val, digit_val. cbn [fold_left]. lia. Qed.

Definition zone_of (s : bytes) : timezone :=
  match s with
  | [43] => TLater
  | [45] => TEarlier
  | _ => TUtc
  end.

Lemma ends_spec : forall s, ends s = true <-> s = [] \/ s = [39].
Proof.
  intros [|c [|d t]]; cbn [ends].
  - split; auto.
  - split.
    + intros H. apply N.eqb_eq in H. subst. now right.
    + intros [H|H]; [discriminate|]. injection H as ->. reflexivity.
  - split; [discriminate|]. intros [H|H]; discriminate.
Qed.
Lemma sign_spec : forall c, is_sign c = true -> sign_of c (zone_of [c]).
Proof.
  intros c H. unfold is_sign in H. rewrite !orb_true_iff, !N.eqb_eq in H. destruct H as [[-> | ->]| ->]; constructor.
Qed.
Lemma and_dig : forall a b, dig a && dig b = true -> dec_digit a /\ dec_digit b.
Proof. intros a b H. apply andb_true_iff in H. rewrite !dig_spec in H. exact H. Qed.
Lemma dig_and : forall a b, dec_digit a -> dec_digit b -> dig a && dig b = true.
Proof. intros a b Ha Hb. apply andb_true_iff. rewrite !dig_spec. auto. Qed.

Lemma tail_sound : forall s sg h m, scan_tail s = Some (sg, h, m) -> offset_text s (zone_of sg) (val_or h 0) (val_or m 0).
Proof.
  intros s sg h m E. destruct s as [|c t]; [injection E as <- <- <-; constructor|]. cbn [scan_tail] in E.
  destruct (is_sign c) eqn:Es; [|discriminate]. destruct (scan_hours t) as [[h' m']|] eqn:Eh; [|discriminate]. cbn in E. injection E as <- <- <-.
  constructor; [now apply sign_spec|]. clear Es.
  destruct t as [|a [|b t]]; cbn [scan_hours] in Eh; [injection Eh as <- <-; constructor|discriminate|].
  destruct (dig a && dig b) eqn:Ed; [|discriminate]. apply and_dig in Ed. destruct Ed as (Ha & Hb).
  assert (Hmin : forall q u m', (q = [] \/ q = [39]) -> scan_minutes u = Some m' -> offset_rest (a :: b :: q ++ u) (pair_val a b) (val_or m' 0)).
  { intros q u m0 Hq Em. destruct u as [|x [|y u]]; cbn [scan_minutes] in Em.
    - injection Em as <-. rewrite app_nil_r. now constructor.
    - discriminate.
    - destruct (dig x && dig y && ends u) eqn:Ex; [|discriminate]. injection Em as <-. apply andb_true_iff in Ex. destruct Ex as (Ex & Eu).
      apply and_dig in Ex. destruct Ex. cbn [val_or]. rewrite digits_two. constructor; auto. now apply ends_spec. }
  cbn [val_or]. destruct t as [|q t].
  - injection Eh as <- <-. cbn [val_or]. rewrite digits_two. apply (Hmin [] [] []); [now left|reflexivity].
  - destruct (39 =? q) eqn:Eq.
    + apply N.eqb_eq in Eq. subst q. destruct (scan_minutes t) as [m0|] eqn:Em; [|discriminate]. cbn in Eh. injection Eh as <- <-.
      cbn [val_or]. rewrite digits_two. apply (Hmin [39] t); [now right|exact Em].
    + destruct (scan_minutes (q :: t)) as [m0|] eqn:Em; [|discriminate]. cbn [option_map] in Eh. injection Eh as <- <-.
      cbn [val_or]. rewrite digits_two. apply (Hmin [] (q :: t)); [now left|exact Em].
Qed.
Lemma tail_complete : forall s tz h m, offset_text s tz h m ->
  exists sg hs ms, scan_tail s = Some (sg, hs, ms) /\ zone_of sg = tz /\ val_or hs 0 = h /\ val_or ms 0 = m.
Proof.
  intros s tz h m H. destruct H as [|sign tz rest h m Hs Hr]; [exists [], [], []; repeat split|].
  assert (Hsg : is_sign sign = true /\ zone_of [sign] = tz) by (destruct Hs; split; reflexivity). destruct Hsg as (Hsg & Hz).
  cbn [scan_tail]. rewrite Hsg. destruct Hr as [|a b q Ha Hb Hq|a b q c d r Ha Hb Hc Hd Hq Hr].
  - exists [sign], [], []. repeat split. exact Hz.
  - exists [sign], [a; b], []. cbn [val_or]. rewrite digits_two. cbn [scan_hours]. rewrite (dig_and a b Ha Hb).
    destruct Hq as [-> | ->]; repeat split; exact Hz.
  - exists [sign], [a; b], [c; d]. cbn [val_or]. rewrite !digits_two. cbn [scan_hours]. rewrite (dig_and a b Ha Hb).
    assert (Hm : scan_minutes (c :: d :: r) = Some [c; d]).
    { cbn [scan_minutes]. rewrite (dig_and c d Hc Hd), (proj2 (ends_spec r) Hr). reflexivity. }
    destruct Hq as [-> | ->].
    + cbn [app]. assert (E : 39 =? c = false) by (unfold dec_digit in Hc; apply N.eqb_neq; lia). rewrite E, Hm. repeat split; exact Hz.
    + cbn [app]. change (39 =? 39) with true. cbv iota. rewrite Hm. repeat split; exact Hz.
Qed.

Definition same_values (vs : list Z) (l : list bytes) : Prop := forall i def, nth i vs def = val_or (nth i l []) def.
Lemma same_cons : forall v s vs l, s <> [] -> digits_value s = v -> same_values vs l -> same_values (v :: vs) (s :: l).
Proof. intros v s vs l Hs Hv H [|i] def; cbn [nth]; [|apply H]. destruct s; [easy|]. cbn [val_or]. symmetry. exact Hv. Qed.
Lemma nil_fields : forall k, exists l, scan_fields k [] = Some (l, []) /\ same_values [] l.
Proof.
  induction k as [|k (l & E & H)]; cbn [scan_fields].
  - exists []. split; [reflexivity|]. intros i def. destruct i; reflexivity.
  - rewrite E. exists ([] :: l). split; [reflexivity|]. intros [|i] def; [reflexivity|]. cbn [nth]. rewrite <- H. destruct i; reflexivity.
Qed.
Lemma fields_sound : forall k t l r sg h m, scan_fields k t = Some (l, r) -> scan_tail r = Some (sg, h, m) ->
  exists vs, fields_text k t vs (zone_of sg) (val_or h 0) (val_or m 0) /\ same_values vs l.
Proof.
  induction k as [|k IH]; intros t l r sg h m E Et; cbn [scan_fields] in E.
  - injection E as <- <-. exists []. split; [constructor; now apply tail_sound|]. intros i def. destruct i; reflexivity.
  - destruct (nil_fields k) as (l0 & E0 & H0). destruct t as [|a [|b t]].
    + rewrite E0 in E. cbn in E. injection E as <- <-. cbn in Et. injection Et as <- <- <-. exists []. split; [constructor|].
      intros [|i] def; [reflexivity|]. cbn [nth]. rewrite <- H0. destruct i; reflexivity.
    + destruct (dig a) eqn:Ea; [|discriminate]. apply dig_spec in Ea. rewrite E0 in E. cbn in E. injection E as <- <-. cbn in Et. injection Et as <- <- <-.
      exists [digit_val a]. split; [now constructor|]. apply same_cons; [discriminate|apply digits_one|exact H0].
    + destruct (dig a && dig b) eqn:Ea; [|discriminate]. apply and_dig in Ea. destruct Ea as (Ha & Hb).
      destruct (scan_fields k t) as [[l1 r1]|] eqn:E1; [|discriminate]. cbn in E. injection E as <- <-.
      destruct (IH t l1 r1 sg h m E1 Et) as (vs & Hf & Hv). exists (pair_val a b :: vs). split; [now constructor|].
      apply same_cons; [discriminate|apply digits_two|exact Hv].
Qed.
Lemma fields_complete : forall k t vs tz h m, fields_text k t vs tz h m ->
  exists l r sg hs ms, scan_fields k t = Some (l, r) /\ scan_tail r = Some (sg, hs, ms) /\ same_values vs l /\
    zone_of sg = tz /\ val_or hs 0 = h /\ val_or ms 0 = m.
Proof.
  intros k t vs tz h m H. induction H as [t tz h m Ht|k|k a Ha|k a b t vs tz h m Ha Hb H IH]; cbn [scan_fields].
  - destruct (tail_complete _ _ _ _ Ht) as (sg & hs & ms & E & Hz & Hh & Hm). exists [], t, sg, hs, ms. repeat split; auto.
    intros i def. destruct i; reflexivity.
  - destruct (nil_fields k) as (l0 & E0 & H0). rewrite E0. exists ([] :: l0), [], [], [], []. repeat split.
    intros [|i] def; [reflexivity|]. cbn [nth]. rewrite <- H0. destruct i; reflexivity.
  - destruct (nil_fields k) as (l0 & E0 & H0). rewrite E0. rewrite (proj2 (dig_spec a) Ha). exists ([a] :: l0), [], [], [], []. repeat split.
    apply same_cons; [discriminate|apply digits_one|exact H0].
  - destruct IH as (l & r & sg & hs & ms & E & Et & Hv & Hz). rewrite (dig_and a b Ha Hb), E. exists ([a; b] :: l), r, sg, hs, ms.
    split; [reflexivity|]. split; [exact Et|]. split; [|exact Hz]. apply same_cons; [discriminate|apply digits_two|exact Hv].
Qed.

Lemma scan_fields_length : forall k t l r, scan_fields k t = Some (l, r) -> List.length l = k.
Proof.
  induction k as [|k IH]; intros t l r E; cbn [scan_fields] in E; [injection E as <- <-; reflexivity|].
  destruct t as [|a [|b t]].
  - destruct (scan_fields k []) as [[l1 r1]|] eqn:E1; [|discriminate]. cbn in E. injection E as <- <-. cbn. f_equal. eapply IH; exact E1.
  - destruct (dig a); [|discriminate]. destruct (scan_fields k []) as [[l1 r1]|] eqn:E1; [|discriminate]. cbn in E. injection E as <- <-. cbn. f_equal. eapply IH; exact E1.
  - destruct (dig a && dig b); [|discriminate]. destruct (scan_fields k t) as [[l1 r1]|] eqn:E1; [|discriminate]. cbn in E. injection E as <- <-. cbn. f_equal. eapply IH; exact E1.
Qed.

(** the constructor, once the text is scanned *)
Definition built (y : bytes) (l : list bytes) (sg h m : bytes) : date :=
  {| year := val_or y 1900; month := val_or (nth 0 l []) 1; day := val_or (nth 1 l []) 1; hour := val_or (nth 2 l []) 0;
     minute := val_or (nth 3 l []) 0; second := val_or (nth 4 l []) 0; zone := zone_of sg;
     hour_offset := val_or h 0; minute_offset := val_or m 0 |}.
Definition ranges_ok (d : date) : bool :=
  ((1 <=? month d) && (month d <=? 12) && (1 <=? day d) && (day d <=? 31) && (0 <=? hour d) && (hour d <=? 23) &&
   (0 <=? minute d) && (minute d <=? 59) && (0 <=? second d) && (second d <=? 59) && (0 <=? hour_offset d) && (hour_offset d <=? 23) &&
   (0 <=? minute_offset d) && (minute_offset d <=? 59))%Z.
Lemma ranges_spec : forall d, ranges_ok d = true <-> in_ranges d.
Proof. intros d. unfold ranges_ok, in_ranges. rewrite !andb_true_iff, !Z.leb_le. tauto. Qed.
Lemma scan_tail_sign : forall s sg h m, scan_tail s = Some (sg, h, m) -> sg = [] \/ exists c, sg = [c] /\ is_sign c = true.
Proof.
  intros s sg h m E. destruct s as [|c t]; [injection E as <- <- <-; now left|]. cbn [scan_tail] in E. destruct (is_sign c) eqn:Es; [|discriminate].
  destruct (scan_hours t) as [[h' m']|]; [|discriminate]. cbn in E. injection E as <- <- <-. right. exists c. auto.
Qed.
Lemma parse_scan : forall text, parse_date text =
  match scan (strip_bom text) with
  | Some (y, l, (sg, h, m)) => if ranges_ok (built y l sg h m) then Ok (built y l sg h m) else Throw EGeneral
  | None => Throw EGeneral
  end.
Proof.
  intros text. unfold parse_date. rewrite match_scan. destruct (scan (strip_bom text)) as [[[y l] [[sg h] m]]|] eqn:E; [|reflexivity].
  assert (Hl : exists l0 l1 l2 l3 l4, l = [l0; l1; l2; l3; l4] /\ y <> [] /\ (sg = [] \/ exists c, sg = [c] /\ is_sign c = true)).
  { unfold scan in E. destruct (strip_header _) as [|a [|b [|c [|d t]]]]; try discriminate. destruct (dig a && dig b && (dig c && dig d)); [|discriminate].
    destruct (scan_fields 5 t) as [[l1 r1]|] eqn:E1; [|discriminate]. destruct (scan_tail r1) as [[[sg1 h1] m1]|] eqn:E2; [|discriminate].
    cbn in E. injection E as <- <- <- <- <-. apply scan_tail_sign in E2. apply scan_fields_length in E1.
    destruct l1 as [|l0 [|l1 [|l2 [|l3 [|l4 [|l5 l6]]]]]]; try discriminate. exists l0, l1, l2, l3, l4. split; [reflexivity|]. split; [discriminate|exact E2]. }
  destruct Hl as (l0 & l1 & l2 & l3 & l4 & -> & Hy & Hsg).
  assert (Hg : group 7 (caps_of y [l0; l1; l2; l3; l4] sg h m) = Some sg) by reflexivity. rewrite Hg.
  assert (Hz : (if beq sg (str "Z") || beq sg [] then Ok TUtc else if beq sg (str "+") then Ok TLater else if beq sg (str "-") then Ok TEarlier else Throw EGeneral) = Ok (zone_of sg)).
  { destruct Hsg as [->|(c & -> & Hc)]; [reflexivity|]. unfold is_sign in Hc. rewrite !orb_true_iff, !N.eqb_eq in Hc. destruct Hc as [[-> | ->]| ->]; reflexivity. }
  rewrite Hz. cbn [rbind].
  assert (Hd : {| year := take 1 (caps_of y [l0; l1; l2; l3; l4] sg h m) 1900; month := take 2 (caps_of y [l0; l1; l2; l3; l4] sg h m) 1;
      day := take 3 (caps_of y [l0; l1; l2; l3; l4] sg h m) 1; hour := take 4 (caps_of y [l0; l1; l2; l3; l4] sg h m) 0; minute := take 5 (caps_of y [l0; l1; l2; l3; l4] sg h m) 0;
      second := take 6 (caps_of y [l0; l1; l2; l3; l4] sg h m) 0; zone := zone_of sg; hour_offset := take 8 (caps_of y [l0; l1; l2; l3; l4] sg h m) 0;
      minute_offset := take 9 (caps_of y [l0; l1; l2; l3; l4] sg h m) 0 |} = built y [l0; l1; l2; l3; l4] sg h m).
  { unfold built. cbn [nth]. f_equal; unfold take, group, caps_of; cbn [numbered find Nat.eqb];
    match goal with |- match ?x with _ => _ end = _ => destruct x; reflexivity end. }
  cbv zeta. rewrite Hd. set (d := built _ _ _ _ _). unfold ranges_ok. rewrite !Z.leb_antisym.
  destruct (month d <? 1)%Z, (12 <? month d)%Z; cbn [orb negb andb]; try reflexivity.
  destruct (day d <? 1)%Z, (31 <? day d)%Z; cbn [orb negb andb]; try reflexivity.
  destruct (hour d <? 0)%Z, (23 <? hour d)%Z; cbn [orb negb andb]; try reflexivity.
  destruct (minute d <? 0)%Z, (59 <? minute d)%Z; cbn [orb negb andb]; try reflexivity.
  destruct (second d <? 0)%Z, (59 <? second d)%Z; cbn [orb negb andb]; try reflexivity.
  destruct (hour_offset d <? 0)%Z, (23 <? hour_offset d)%Z; cbn [orb negb andb]; try reflexivity.
  destruct (minute_offset d <? 0)%Z, (59 <? minute_offset d)%Z; cbn [orb negb andb]; reflexivity.
Qed.

Lemma strip_bom_no : forall c t, c <> 0xEF -> strip_bom (c :: t) = c :: t.
Proof. intros c t H. unfold strip_bom. destruct t as [|b [|d t]]; try reflexivity. rewrite (proj2 (N.eqb_neq _ _)) by exact H. reflexivity. Qed.
Lemma strip_bom_split : forall s, exists bom, s = bom ++ strip_bom s /\ (bom = [] \/ bom = [0xEF; 0xBB; 0xBF]).
Proof.
  intros s. unfold strip_bom. destruct s as [|a [|b [|c t]]]; try (exists []; split; [reflexivity|now left]).
  destruct ((a =? 0xEF) && (b =? 0xBB) && (c =? 0xBF)) eqn:E; [|exists []; split; [reflexivity|now left]].
  rewrite !andb_true_iff, !N.eqb_eq in E. destruct E as ((-> & ->) & ->). exists [0xEF; 0xBB; 0xBF]. split; [reflexivity|now right].
Qed.
Lemma strip_header_split : forall s, exists hd, s = hd ++ strip_header s /\ (hd = [] \/ hd = [68; 58]).
Proof.
  intros s. unfold strip_header. destruct s as [|a [|b t]]; try (exists []; split; [reflexivity|now left]).
  destruct ((68 =? a) && (58 =? b)) eqn:E; [|exists []; split; [reflexivity|now left]].
  rewrite !andb_true_iff, !N.eqb_eq in E. destruct E as (<- & <-). exists [68; 58]. split; [reflexivity|now right].
Qed.

Lemma parse_sound : forall text d, parse_date text = Ok d -> date_text text d /\ in_ranges d.
Proof.
  intros text d E. rewrite parse_scan in E. destruct (scan (strip_bom text)) as [[[y l] [[sg h] m]]|] eqn:Es; [|discriminate].
  destruct (ranges_ok (built y l sg h m)) eqn:Er; [|discriminate]. injection E as <-. split; [|now apply ranges_spec].
  unfold scan in Es. destruct (strip_bom_split text) as (bom & Eb & Hb). destruct (strip_header_split (strip_bom text)) as (hd & Eh & Hh).
  destruct (strip_header (strip_bom text)) as [|y1 [|y2 [|y3 [|y4 t]]]] eqn:Ey; try discriminate.
  destruct (dig y1 && dig y2 && (dig y3 && dig y4)) eqn:Ed; [|discriminate]. apply andb_true_iff in Ed. destruct Ed as (E1 & E2).
  apply and_dig in E1, E2. destruct (scan_fields 5 t) as [[l1 r1]|] eqn:Ef; [|discriminate].
  destruct (scan_tail r1) as [[[sg1 h1] m1]|] eqn:Et; [|discriminate]. cbn in Es. injection Es as <- <- <- <- <-.
  destruct (fields_sound 5 t l1 r1 sg1 h1 m1 Ef Et) as (vs & Hf & Hv).
  exists bom, hd, y1, y2, y3, y4, t, vs. split; [rewrite Eb at 1; rewrite Eh; reflexivity|].
  split; [exact Hb|]. split; [exact Hh|]. destruct E1, E2. repeat (split; [assumption|]).
  unfold built. cbn [year month day hour minute second zone hour_offset minute_offset] in *.
  split; [cbn [val_or]; apply digits_four|]. repeat split; symmetry; apply Hv.
Qed.
Lemma parse_complete : forall text d, date_text text d -> in_ranges d -> parse_date text = Ok d.
Proof.
  intros text d (bom & hd & y1 & y2 & y3 & y4 & t & vs & -> & Hb & Hh & H1 & H2 & H3 & H4 & Hf & Hy & Hmo & Hda & Hho & Hmi & Hse) Hr.
  rewrite parse_scan.
  assert (Es : strip_header (strip_bom (bom ++ hd ++ [y1; y2; y3; y4] ++ t)) = y1 :: y2 :: y3 :: y4 :: t).
  { assert (E1 : strip_bom (bom ++ hd ++ [y1; y2; y3; y4] ++ t) = hd ++ [y1; y2; y3; y4] ++ t).
    { destruct Hb as [-> | ->]; [|reflexivity]. cbn [app]. destruct Hh as [-> | ->]; cbn [app]; apply strip_bom_no; [unfold dec_digit in H1; lia|discriminate]. }
    rewrite E1. destruct Hh as [-> | ->]; [|reflexivity]. cbn [app]. unfold strip_header. rewrite (proj2 (N.eqb_neq 68 y1)); [reflexivity|]. unfold dec_digit in H1. lia. }
  unfold scan. rewrite Es. rewrite (dig_and y1 y2 H1 H2), (dig_and y3 y4 H3 H4). cbn [andb].
  destruct (fields_complete _ _ _ _ _ _ Hf) as (l & r & sg & hs & ms & El & Et & Hv & Hz & Hho' & Hmi'). rewrite El, Et. cbn [option_map].
  assert (Hd : built [y1; y2; y3; y4] l sg hs ms = d).
  { destruct d as [dy dmo dda dho dmi dse dz dh dm]. cbn [year month day hour minute second zone hour_offset minute_offset] in *.
    unfold built. cbn [val_or]. rewrite digits_four. rewrite <- !Hv. rewrite Hz. subst. reflexivity. }
  rewrite Hd. rewrite (proj2 (ranges_spec d) Hr). reflexivity.
Qed.
Lemma parse_total : forall text, parse_date text = Throw EGeneral \/ exists d, parse_date text = Ok d.
Proof.
  intros text. rewrite parse_scan. destruct (scan (strip_bom text)) as [[[y l] [[sg h] m]]|]; [|now left].
  destruct (ranges_ok _); [right; eauto|now left].
Qed.

(** numbers that are written with two or four digits *)
Lemma padded2 : forall z, (0 <= z <= 99)%Z -> exists a b, padded_number 2 z = [a; b] /\ dec_digit a /\ dec_digit b /\ pair_val a b = z.
Proof.
  intros z Hz. exists (48 + Z.to_N z / 10), (48 + Z.to_N z mod 10).
  assert (Hc : forallb (fun n => let z := Z.of_nat n in
     if list_eq_dec N.eq_dec (padded_number 2 z) [48 + Z.to_N z / 10; 48 + Z.to_N z mod 10] then true else false) (seq 0 100) = true) by (vm_compute; reflexivity).
  rewrite forallb_forall in Hc. specialize (Hc (Z.to_nat z)). cbv zeta in Hc. rewrite Z2Nat.id in Hc by lia.
  assert (Hin : In (Z.to_nat z) (seq 0 100)) by (apply in_seq; lia). specialize (Hc Hin).
  destruct (list_eq_dec _ _ _) as [E|]; [|discriminate]. split; [exact E|]. unfold dec_digit, pair_val, digit_val.
  assert (Hn : Z.to_N z < 100) by lia. pose proof (N.mod_upper_bound (Z.to_N z) 10). pose proof (N.div_mod (Z.to_N z) 10).
  assert (Z.to_N z / 10 < 10) by (apply N.div_lt_upper_bound; lia). lia.
Qed.
Lemma decimal_small : forall f n, n < 10 -> decimal (S f) n = [48 + n].
Proof. intros f n H. cbn [decimal]. rewrite (proj2 (N.ltb_lt _ _)) by lia. reflexivity. Qed.
Lemma decimal_add : forall f n, 10 <= n -> decimal (S f) n = decimal f (n / 10) ++ [48 + n mod 10].
Proof. intros f n Hn. cbn [decimal]. rewrite (proj2 (N.ltb_ge _ _)) by lia. reflexivity. Qed.
Lemma padded4 : forall z, (0 <= z <= 9999)%Z -> exists a b c d, padded_number 4 z = [a; b; c; d] /\ dec_digit a /\ dec_digit b /\ dec_digit c /\ dec_digit d /\
  (100 * pair_val a b + pair_val c d)%Z = z.
Proof.
  intros z Hz. remember (Z.to_N z) as n eqn:En. assert (Hn : n < 10000) by lia. assert (Hz' : z = Z.of_N n) by lia. clear En Hz. subst z.
  unfold padded_number. rewrite N2Z.id.
  set (q := n / 10). set (r := n mod 10). set (q2 := q / 10). set (r2 := q mod 10). set (q3 := q2 / 10). set (r3 := q2 mod 10).
  assert (B1 : n = 10 * q + r) by (apply N.div_mod; lia). assert (B2 : q = 10 * q2 + r2) by (apply N.div_mod; lia).
  assert (B3 : q2 = 10 * q3 + r3) by (apply N.div_mod; lia). assert (r < 10 /\ r2 < 10 /\ r3 < 10) as (R1 & R2 & R3) by (repeat split; apply N.mod_upper_bound; lia).
  exists (48 + q3), (48 + r3), (48 + r2), (48 + r). split.
  - destruct (N.lt_ge_cases n 10) as [H|H].
    { rewrite decimal_small by exact H. cbn [List.length Nat.sub repeat app]. repeat f_equal; lia. }
    rewrite decimal_add by exact H. fold q r. destruct (N.lt_ge_cases q 10) as [H'|H'].
    { rewrite decimal_small by exact H'. cbn [List.length Nat.sub repeat app]. repeat f_equal; lia. }
    rewrite decimal_add by exact H'. fold q2 r2. destruct (N.lt_ge_cases q2 10) as [H2|H2].
    { rewrite decimal_small by exact H2. cbn [List.length Nat.sub repeat app]. repeat f_equal; lia. }
    rewrite decimal_add by exact H2. fold q3 r3. rewrite decimal_small by lia. reflexivity.
  - unfold dec_digit, pair_val, digit_val. lia.
Qed.

Lemma format_text : forall d, clock_date d -> exists text, format_date d = Ok text /\ date_text text d.
Proof.
  intros d (Hr & Hy & Hz & Hu). destruct Hr as (Hmo & Hda & Hho & Hmi & Hse & Hoh & Hom).
  destruct (padded4 (year d) Hy) as (y1 & y2 & y3 & y4 & Ey & D1 & D2 & D3 & D4 & Vy).
  destruct (padded2 (month d)) as (a1 & a2 & Ea & A1 & A2 & Va); [lia|].
  destruct (padded2 (day d)) as (b1 & b2 & Eb & B1 & B2 & Vb); [lia|].
  destruct (padded2 (hour d)) as (c1 & c2 & Ec & C1 & C2 & Vc); [lia|].
  destruct (padded2 (minute d)) as (e1 & e2 & Ee & E1 & E2 & Ve); [lia|].
  destruct (padded2 (second d)) as (f1 & f2 & Ef & F1 & F2 & Vf); [lia|].
  destruct (padded2 (hour_offset d)) as (g1 & g2 & Eg & G1 & G2 & Vg); [lia|].
  destruct (padded2 (minute_offset d)) as (h1 & h2 & Eh & H1 & H2 & Vh); [lia|].
  assert (Hall : forall tail, offset_text tail (zone d) (hour_offset d) (minute_offset d) ->
    date_text (str "D:" ++ padded_number 4 (year d) ++ padded_number 2 (month d) ++ padded_number 2 (day d) ++ padded_number 2 (hour d) ++ padded_number 2 (minute d) ++ padded_number 2 (second d) ++ tail) d).
  { intros tail Ht. rewrite Ey, Ea, Eb, Ec, Ee, Ef. exists [], [68; 58], y1, y2, y3, y4, ([a1; a2] ++ [b1; b2] ++ [c1; c2] ++ [e1; e2] ++ [f1; f2] ++ tail), [month d; day d; hour d; minute d; second d].
    split; [reflexivity|]. split; [now left|]. split; [now right|]. repeat (split; [assumption|]). split; [|split; [now symmetry|repeat split]].
    rewrite <- Va, <- Vb, <- Vc, <- Ve, <- Vf. cbn [app]. repeat (apply fields_two; [assumption..|]). now constructor. }
  assert (Hoff : forall sign, sign_of sign (zone d) -> offset_text ([sign] ++ padded_number 2 (hour_offset d) ++ [39] ++ padded_number 2 (minute_offset d) ++ [39]) (zone d) (hour_offset d) (minute_offset d)).
  { intros sign Hs. cbn [app]. constructor; [exact Hs|]. rewrite Eg, Eh. rewrite <- Vg, <- Vh. apply (rest_both g1 g2 [39] h1 h2 [39]); auto. }
  unfold format_date. destruct (zone d) eqn:E; [easy| | |].
  - eexists. split; [reflexivity|]. rewrite <- !app_assoc. apply Hall. destruct (Hu eq_refl) as (-> & ->).
    apply (off_some 90 TUtc [] 0%Z 0%Z); constructor.
  - eexists. split; [reflexivity|]. rewrite <- !app_assoc. apply Hall. apply (Hoff 43). constructor.
  - eexists. split; [reflexivity|]. rewrite <- !app_assoc. apply Hall. apply (Hoff 45). constructor.
Qed.

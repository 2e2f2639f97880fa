(** The object parser reads every standard text of an object, whatever other keywords its dictionary has. *)
From Coq Require Import List NArith ZArith Bool Lia String Sorted.
From Verif.Model Require Import Base Char Numbers SMap Object Token Parser.
From Verif.Spec Require Import Strings Grammar.
From Verif.Proof Require Import Tac Numbers Strings SMap Token.
Import ListNotations.
Local Open Scope N_scope.

Lemma gap_token_ends : forall g rest, gap g -> g <> [] -> token_ends (g ++ rest).
Proof. intros g rest H Hne. destruct H; [congruence| |]; unfold token_ends; cbn [app]; [left; assumption|right; cbn; tauto]. Qed.

Lemma token_ends_app : forall a b, token_ends a -> a <> [] \/ token_ends b -> token_ends (a ++ b).
Proof. intros [|c a] b Ha Hb; cbn [app]; [destruct Hb; [congruence|assumption]|exact Ha]. Qed.

Lemma name_text_bytes : forall txt n, name_text txt n -> all_bytes n.
Proof.
  intros txt n H. induction H as [|c txt n Hb Hc Hne Ht IH|h l x y txt n Hh Hl Ht IH]; constructor; auto.
  apply hex_digit_val in Hh, Hl. unfold is_byte. lia.
Qed.

(** ** dictionaries: the entries collected by the parser *)
Fixpoint collect (acc es : list (bytes * obj)) : list (bytes * obj) :=
  match es with
  | [] => acc
  | (k, o) :: t => match o with
                   | ONull => collect acc t
                   | _ => collect (if sm_contains k acc then acc else sm_insert k o acc) t
                   end
  end.

Definition keys_bytes (es : list (bytes * obj)) : Prop := Forall (fun e => all_bytes (fst e)) es.

Lemma collect_spec : forall es acc, sm_sorted acc -> sm_keys_ok acc -> keys_bytes es ->
  sm_sorted (collect acc es) /\ sm_keys_ok (collect acc es) /\
  forall k, all_bytes k -> sm_find k (collect acc es) = match sm_find k acc with Some v => Some v | None => first_value k es end.
Proof.
  induction es as [|[k o] es IH]; intros acc Hs Hk He.
  - cbn. split; [assumption|]. split; [assumption|]. intros k _. destruct (sm_find k acc); reflexivity.
  - inversion He as [|? ? Hkb He']; subst. cbn [fst] in Hkb.
    assert (Hins : forall o', o = o' -> o' <> ONull ->
      let acc' := if sm_contains k acc then acc else sm_insert k o' acc in
      sm_sorted (collect acc' es) /\ sm_keys_ok (collect acc' es) /\
      forall k0, all_bytes k0 -> sm_find k0 (collect acc' es) = match sm_find k0 acc with Some v => Some v | None => first_value k0 ((k, o') :: es) end).
    { intros o' _ Hnn acc'.
      assert (Hs' : sm_sorted acc') by (unfold acc'; destruct (sm_contains k acc); [assumption|apply sm_insert_sorted; assumption]).
      assert (Hk' : sm_keys_ok acc') by (unfold acc'; destruct (sm_contains k acc); [assumption|apply sm_insert_keys_ok; assumption]).
      destruct (IH acc' Hs' Hk' He') as (I1 & I2 & I3). split; [assumption|]. split; [assumption|].
      intros k0 Hk0. rewrite I3 by assumption. unfold acc', sm_contains.
      destruct (sm_find k acc) as [w|] eqn:Ef.
      - destruct (sm_find k0 acc) eqn:Ef0; [reflexivity|]. cbn [first_value].
        destruct (list_eq_dec N.eq_dec k0 k) as [->|_]; [congruence|reflexivity].
      - rewrite sm_find_insert by assumption. destruct (sm_find k0 acc) eqn:Ef0; [reflexivity|]. cbn [first_value].
        destruct (list_eq_dec N.eq_dec k0 k) as [->|_]; [|reflexivity]. destruct o'; congruence. }
    destruct o; try (apply (Hins _ eq_refl); discriminate).
    cbn [collect]. destruct (IH acc Hs Hk He') as (I1 & I2 & I3). split; [assumption|]. split; [assumption|].
    intros k0 Hk0. rewrite I3 by assumption. destruct (sm_find k0 acc); [reflexivity|]. cbn [first_value].
    destruct (list_eq_dec N.eq_dec k0 k); reflexivity.
Qed.

Lemma key_lt_ltb : forall a b, key_lt a b -> buffer_ltb a b = true.
Proof.
  intros a b H. induction H as [y b|x y a b H|x a b H IH]; cbn; [reflexivity| |].
  - replace (schar x <? schar y)%Z with true by lia. reflexivity.
  - replace (schar x <? schar x)%Z with false by lia. exact IH.
Qed.
Lemma ltb_key_lt : forall a b, all_bytes a -> all_bytes b -> buffer_ltb a b = true -> key_lt a b.
Proof.
  induction a as [|x a IH]; intros [|y b] Ha Hb H; cbn in H; try discriminate; [constructor|].
  inversion Ha; inversion Hb; subst.
  destruct (schar x <? schar y)%Z eqn:E1; [constructor; lia|]. destruct (schar y <? schar x)%Z eqn:E2; [discriminate|].
  assert (x = y) by (apply schar_inj; auto; lia). subst y. apply kl_eq. auto.
Qed.

Lemma sorted_keys : forall m, keys_sorted m -> sm_sorted m.
Proof.
  intros m H. unfold keys_sorted in H. induction H as [|e m Hs IH Ha]; constructor; auto.
  eapply Forall_impl; [|exact Ha]. intros e2. apply key_lt_ltb.
Qed.

Lemma first_value_in : forall es k v, first_value k es = Some v -> In (k, v) es.
Proof.
  induction es as [|[k' o] es IH]; intros k v H; cbn in H; [discriminate|].
  destruct (list_eq_dec N.eq_dec k k') as [->|_]; [|right; auto]. destruct o; try (left; congruence). right; auto.
Qed.

Lemma dict_content_collect : forall es m, keys_bytes es -> dict_content es m -> collect [] es = m.
Proof.
  intros es m He [Hs Hm].
  destruct (collect_spec es [] (SSorted_nil _) (Forall_nil _) He) as (I1 & I2 & I3).
  apply sm_sorted_unique; [assumption|apply sorted_keys; assumption|].
  intros [k v]. rewrite Hm. split; intros H.
  - assert (Hb : all_bytes k) by (unfold sm_keys_ok in I2; rewrite Forall_forall in I2; exact (I2 _ H)).
    apply sm_find_in in H; auto. rewrite I3 in H by exact Hb. exact H.
  - assert (Hb : all_bytes k). { apply first_value_in in H. unfold keys_bytes in He. rewrite Forall_forall in He. exact (He _ H). }
    apply sm_find_in; auto. rewrite I3 by exact Hb. exact H.
Qed.

Lemma collect_keys : forall txt es, entries_text txt es -> keys_bytes es.
Proof.
  intros txt es H. induction H; constructor; auto. cbn. eapply name_text_bytes; eauto.
Qed.

Definition parser_keywords : list (list N) := [str "null"; str "true"; str "false"; str "R"; str "endobj"; str "endstream"; str "xref";
    str "startxref"; str "trailer"; str "obj"; str "stream"].
Definition keywords_of (d : dictionary) : Prop := forall w, In w parser_keywords -> d w = parser_dictionary w.

Section WithFile.
(** any dictionary that has the keywords of the parser *)
Variable d : dictionary.
Hypothesis Hkw : keywords_of d.
Variable resolve_length : N -> N -> res Z.
Notation rts := (read_token_skip d).
Notation pobj := (parse_obj d resolve_length).
Notation parr := (parse_array d resolve_length).
Notation pdic := (parse_dict d resolve_length).

(** a keyword of the parser's dictionary *)
Lemma tok_keyword : forall w rest, In w parser_keywords ->
  token_ends rest -> rts (w ++ rest) = Ok ((parser_dictionary w, w), rest).
Proof.
  intros w rest Hw Hr. rewrite <- (Hkw w Hw).
  apply tok_word; [| |exact Hr|rewrite (Hkw w Hw)]; cbn in Hw; repeat (destruct Hw as [<-|Hw]; [try reflexivity; try discriminate|]); destruct Hw.
Qed.

(** first token of what follows: readable, not a reference marker or a stream *)
Definition head_ok (rest : bytes) : Prop :=
  exists t1 r1, rts rest = Ok (t1, r1) /\ fst t1 <> TyRefMarker /\ fst t1 <> TyStreamBegin.
(** look-ahead after an integer or a dictionary does not see a reference or a stream *)
Definition look_ok (rest : bytes) : Prop :=
  exists t1 r1, rts rest = Ok (t1, r1) /\ fst t1 <> TyRefMarker /\ fst t1 <> TyStreamBegin /\
    (fst t1 = TyInt -> (exists z, stoll (snd t1) = Ok z) /\ exists t2 r2, rts r1 = Ok (t2, r2) /\ fst t2 <> TyRefMarker).

Lemma look_head : forall rest, look_ok rest -> head_ok rest.
Proof. intros rest (t1 & r1 & H1 & H2 & H3 & _). exists t1, r1. auto. Qed.

Definition follow (o : obj) (rest : bytes) : Prop :=
  (self_delimited o = false -> token_ends rest) /\ look_ok rest.

Lemma look_gap : forall g rest, gap g -> look_ok rest -> look_ok (g ++ rest).
Proof. intros g rest Hg (t1 & r1 & H1 & H). exists t1, r1. rewrite skip_gap by exact Hg. auto. Qed.

(** the look-ahead at an object text *)
Lemma sign_signed : forall ds, ds <> [] -> Forall decimal_digit ds -> decimal_value ds < 2 ^ 63 ->
  stoll ds = Ok (Z.of_N (decimal_value ds)).
Proof.
  intros ds Hne Hd Hv. assert (H := stoll_decimal [] false ds st_none Hne Hd). cbn [app signed] in H. apply H. lia.
Qed.
Lemma tok_nat : forall ds rest, ds <> [] -> Forall decimal_digit ds -> token_ends rest -> rts (ds ++ rest) = Ok ((TyInt, ds), rest).
Proof. intros ds rest Hne Hd Hr. exact (tok_int d [] false ds rest st_none Hne Hd Hr). Qed.

Lemma look_object : forall txt o rest, object_text txt o -> (self_delimited o = false -> token_ends rest) -> head_ok rest ->
  look_ok (txt ++ rest).
Proof.
  intros txt o rest H Hends Hh. unfold look_ok. destruct H; cbn [self_delimited] in Hends; try specialize (Hends eq_refl).
  - do 2 eexists. split; [apply tok_keyword; [cbn; tauto|assumption]|]. cbn. repeat split; discriminate.
  - do 2 eexists. split; [apply tok_keyword; [cbn; tauto|assumption]|]. cbn. repeat split; discriminate.
  - do 2 eexists. split; [apply tok_keyword; [cbn; tauto|assumption]|]. cbn. repeat split; discriminate.
  - do 2 eexists. split; [eapply tok_int; eauto|]. cbn [fst snd]. split; [discriminate|]. split; [discriminate|]. intros _. split.
    + eexists. eapply stoll_decimal; eauto.
    + destruct Hh as (t2 & r2 & H3 & H4 & _). eauto.
  - do 2 eexists. split; [eapply tok_real; eauto|]. cbn [fst snd]. repeat split; discriminate.
  - do 2 eexists. split; [cbn [app]; eapply tok_name; eauto|]. cbn [fst snd]. repeat split; discriminate.
  - do 2 eexists. split; [cbn [app]; eapply tok_lit; eauto|]. cbn [fst snd]. repeat split; discriminate.
  - destruct (tok_hex d txt v rest H) as (raw & Hr & _). do 2 eexists. split; [cbn [app]; exact Hr|]. cbn [fst snd]. repeat split; discriminate.
  - rewrite <- app_assoc. do 2 eexists. split.
    + apply tok_nat; [assumption|assumption|]. rewrite <- !app_assoc. apply gap_token_ends; assumption.
    + cbn [fst snd]. split; [discriminate|]. split; [discriminate|]. intros _. split.
      * eexists. apply sign_signed; assumption.
      * do 2 eexists. split.
        { rewrite <- !app_assoc. rewrite skip_gap by assumption. apply tok_nat; [assumption|assumption|].
          apply gap_token_ends; assumption. }
        discriminate.
  - do 2 eexists. split; [cbn [app]; apply skip_of_read; [reflexivity|discriminate]|]. cbn [fst snd]. repeat split; discriminate.
  - do 2 eexists. split; [cbn [app]; apply skip_of_read; [reflexivity|discriminate]|]. cbn [fst snd]. repeat split; discriminate.
Qed.

Lemma look_items : forall txt l, items_text txt l -> forall rest, look_ok (txt ++ 93 :: rest).
Proof.
  assert (Hc : forall rest, look_ok (93 :: rest)).
  { intros rest. do 2 eexists. split; [apply skip_of_read; [reflexivity|discriminate]|]. cbn [fst snd]. repeat split; discriminate. }
  intros txt l H. induction H as [g Hg|g txt o more l Hg Ho Hm IH Hs]; intros rest.
  - apply look_gap; auto.
  - rewrite <- !app_assoc. apply look_gap; [assumption|]. eapply look_object; [eassumption| |].
    + intros Hd. apply token_ends_app; [auto|right; cbn; tauto].
    + apply look_head, IH.
Qed.

Lemma look_entries : forall txt es, entries_text txt es -> forall rest, look_ok (txt ++ 62 :: 62 :: rest).
Proof.
  intros txt l H rest. destruct H as [g Hg|g kt k g2 txt o more es Hg Hk Hg2 Ho Hm Hs1 Hs2].
  - apply look_gap; [auto|]. do 2 eexists. split; [apply skip_of_read; [reflexivity|discriminate]|]. cbn [fst snd]. repeat split; discriminate.
  - rewrite <- !app_assoc. apply look_gap; [assumption|]. eapply (look_object (47 :: kt) (OName k)); [constructor; assumption| |].
    + intros _. rewrite !app_assoc. apply token_ends_app; [rewrite <- !app_assoc; assumption|right; cbn; tauto].
    + apply look_head. rewrite !app_assoc. rewrite <- (app_assoc (g2 ++ txt)). rewrite <- (app_assoc g2 txt). apply look_gap; [assumption|].
      eapply look_object; [eassumption| |].
      * intros Hd. apply token_ends_app; [auto|right; cbn; tauto].
      * apply look_head. clear - Hm. destruct Hm as [g Hg|g kt k g2 txt o more es Hg Hk Hg2 Ho Hm Hs1 Hs2].
        { apply look_gap; [auto|]. do 2 eexists. split; [apply skip_of_read; [reflexivity|discriminate]|]. cbn [fst snd]. repeat split; discriminate. }
        rewrite <- !app_assoc. apply look_gap; [assumption|]. cbn [app].
        do 2 eexists. split; [eapply tok_name; [eassumption|]|cbn [fst snd]; repeat split; discriminate].
        rewrite !app_assoc. apply token_ends_app; [rewrite <- !app_assoc; assumption|right; cbn; tauto].
Qed.

(** ** reading *)
Lemma object_text_nonempty : forall txt o, object_text txt o -> (1 <= List.length txt)%nat.
Proof.
  intros txt o H. destruct H; cbn [List.length str app]; try lia.
  - destruct ds; [congruence|]. rewrite app_length. cbn. lia.
  - rewrite !app_length. cbn. lia.
  - destruct dn; [congruence|]. rewrite app_length. cbn. lia.
Qed.

Lemma take_digits_all : forall ds, Forall decimal_digit ds -> take_digits 10 ds 0 O = (decimal_value ds, List.length ds).
Proof. intros ds H. assert (T := take_digits_decimal ds [] 0 O H). rewrite app_nil_r in T. exact T. Qed.

Lemma create_real_text : forall s neg ip fp, sign_text s neg -> ip ++ fp <> [] -> Forall decimal_digit ip -> Forall decimal_digit fp ->
  create_real (s ++ ip ++ [46] ++ fp) = Ok (OReal neg (decimal_value (ip ++ fp)) (N.of_nat (List.length fp))).
Proof.
  intros s neg ip fp Hs Hne Hi Hf. unfold create_real, real_parts, bytes.
  assert (E : (match s ++ ip ++ [46] ++ fp with 45 :: t => (true, t) | 43 :: t => (false, t) | _ => (false, s ++ ip ++ [46] ++ fp) end)
     = (neg, ip ++ [46] ++ fp)).
  { destruct Hs; cbn [app]; try reflexivity. destruct ip as [|c ip]; cbn [app]; [reflexivity|].
    inversion Hi as [|? ? Hc _]; subst. unfold decimal_digit in Hc.
    destruct c as [|p]; [reflexivity|]. do 6 (destruct p as [p|p|]; try reflexivity; try (exfalso; lia)). }
  rewrite E. rewrite span_app; [|apply decimal_numeric; assumption|reflexivity]. cbn [app List.tl].
  rewrite take_digits_all by (apply Forall_app; auto).
  destruct (ip ++ fp) as [|c t] eqn:E2; [congruence|]. reflexivity.
Qed.

Scheme object_text_mut := Induction for object_text Sort Prop
with items_text_mut := Induction for items_text Sort Prop
with entries_text_mut := Induction for entries_text Sort Prop.
Combined Scheme text_ind from object_text_mut, items_text_mut, entries_text_mut.

Lemma not_stream : forall txt o, object_text txt o -> is_stream o = false.
Proof. intros txt o H. destruct H; reflexivity. Qed.

Lemma not_end : forall rest t1 r1, rts rest = Ok (t1, r1) -> forall ty, fst t1 <> ty -> ttype_eqb (fst t1) ty = false.
Proof.
  assert (Hb : forall a b, bytes_eqb a b = true -> a = b).
  { induction a as [|x a IH]; intros [|y b] H; cbn in H; try discriminate; [reflexivity|].
    apply andb_true_iff in H. destruct H as [H1 H2]. f_equal; [lia|auto]. }
  intros rest t1 r1 _ ty H. destruct (fst t1) eqn:E, ty; cbn; try reflexivity; try congruence.
  destruct (bytes_eqb s s0) eqn:Eb; [|reflexivity]. apply Hb in Eb. congruence.
Qed.

(** first token of an object is no closing bracket *)
Lemma first_token_object : forall txt o rest, object_text txt o -> (self_delimited o = false -> token_ends rest) ->
  exists t1 r1, rts (txt ++ rest) = Ok (t1, r1) /\ fst t1 <> TyArrayEnd /\ fst t1 <> TyDictEnd.
Proof.
  intros txt o rest H Hends. destruct H; cbn [self_delimited] in Hends; try specialize (Hends eq_refl).
  - do 2 eexists. split; [apply tok_keyword; [cbn; tauto|assumption]|]. cbn. split; discriminate.
  - do 2 eexists. split; [apply tok_keyword; [cbn; tauto|assumption]|]. cbn. split; discriminate.
  - do 2 eexists. split; [apply tok_keyword; [cbn; tauto|assumption]|]. cbn. split; discriminate.
  - do 2 eexists. split; [eapply tok_int; eauto|]. cbn [fst snd]. split; discriminate.
  - do 2 eexists. split; [eapply tok_real; eauto|]. cbn [fst snd]. split; discriminate.
  - do 2 eexists. split; [cbn [app]; eapply tok_name; eauto|]. cbn [fst snd]. split; discriminate.
  - do 2 eexists. split; [cbn [app]; eapply tok_lit; eauto|]. cbn [fst snd]. split; discriminate.
  - destruct (tok_hex d txt v rest H) as (raw & Hr & _). do 2 eexists. split; [cbn [app]; exact Hr|]. cbn [fst snd]. split; discriminate.
  - rewrite <- app_assoc. do 2 eexists. split.
    + apply tok_nat; [assumption|assumption|]. rewrite <- !app_assoc. apply gap_token_ends; assumption.
    + cbn [fst snd]. split; discriminate.
  - do 2 eexists. split; [cbn [app]; apply skip_of_read; [reflexivity|discriminate]|]. cbn [fst snd]. split; discriminate.
  - do 2 eexists. split; [cbn [app]; apply skip_of_read; [reflexivity|discriminate]|]. cbn [fst snd]. split; discriminate.
Qed.

Lemma rts_gap_obj : forall g f s, gap g -> pobj f (g ++ s) = pobj f s.
Proof. intros g f s Hg. destruct f as [|f]; [reflexivity|]. cbn [parse_obj]. rewrite skip_gap by exact Hg. reflexivity. Qed.

Lemma reads_text :
  (forall txt o, object_text txt o -> forall rest f, (List.length txt < f)%nat -> follow o rest -> pobj f (txt ++ rest) = Ok (o, rest)) /\
  (forall txt l, items_text txt l -> forall rest f, (List.length txt + 1 < f)%nat -> parr f (txt ++ 93 :: rest) = Ok (l, rest)) /\
  (forall txt es, entries_text txt es -> forall rest f acc, (List.length txt + 1 < f)%nat ->
      pdic f (txt ++ 62 :: 62 :: rest) acc = Ok (collect acc es, rest)).
Proof.
  apply text_ind.
  - intros rest f Hf [Hends _]. destruct f as [|f]; [lia|]. cbn [parse_obj]. rewrite tok_keyword by (auto; cbn; tauto). reflexivity.
  - intros rest f Hf [Hends _]. destruct f as [|f]; [lia|]. cbn [parse_obj]. rewrite tok_keyword by (auto; cbn; tauto). reflexivity.
  - intros rest f Hf [Hends _]. destruct f as [|f]; [lia|]. cbn [parse_obj]. rewrite tok_keyword by (auto; cbn; tauto). reflexivity.
  - intros s neg ds Hs Hne Hd Hr rest f Hf [Hends Hl]. destruct f as [|f]; [lia|]. cbn [parse_obj].
    rewrite (tok_int _ s neg) by auto. cbn [rbind fst snd]. rewrite (stoll_decimal s neg ds Hs Hne Hd Hr). cbn [rbind].
    destruct Hl as (t1 & r1 & H1 & H2 & H3 & H4). unfold read_reference. rewrite H1. cbn [rbind].
    destruct (ttype_eqb (fst t1) TyInt) eqn:E; [|reflexivity].
    assert (Ei : fst t1 = TyInt) by (destruct (fst t1); cbn in E; congruence).
    destruct (H4 Ei) as ((z & Hz) & t2 & r2 & H5 & H6). rewrite Hz. cbn [rbind]. rewrite H5. cbn [rbind].
    rewrite (not_end _ _ _ H5 _ H6). reflexivity.
  - intros s neg ip fp Hs Hne Hi Hp rest f Hf [Hends _]. destruct f as [|f]; [lia|]. cbn [parse_obj].
    rewrite (tok_real _ s neg) by auto. cbn [rbind fst snd]. rewrite (create_real_text s neg ip fp Hs Hne Hi Hp). reflexivity.
  - intros txt n Hn rest f Hf [Hends _]. destruct f as [|f]; [lia|]. cbn [parse_obj app].
    rewrite (tok_name _ txt n) by auto. reflexivity.
  - intros txt v Hv rest f Hf _. destruct f as [|f]; [lia|]. cbn [parse_obj app].
    rewrite (tok_lit _ txt v) by auto. cbn [rbind fst snd]. rewrite (literal_decode_of txt v Hv). reflexivity.
  - intros txt v Hv rest f Hf _. destruct f as [|f]; [lia|]. cbn [parse_obj app].
    destruct (tok_hex d txt v rest Hv) as (raw & Hr & Hd). rewrite Hr. cbn [rbind fst snd]. rewrite Hd. reflexivity.
  - intros dn g1 dg g2 Hn Hdn Hvn Hg Hdg Hvg G1 G1n G2 G2n rest f Hf [Hends _]. destruct f as [|f]; [lia|]. cbn [parse_obj].
    rewrite <- !app_assoc. rewrite tok_nat by (auto; apply gap_token_ends; auto). cbn [rbind fst snd].
    rewrite sign_signed by auto. cbn [rbind]. unfold read_reference. rewrite skip_gap by auto.
    rewrite tok_nat by (auto; apply gap_token_ends; auto). cbn [rbind fst snd ttype_eqb].
    rewrite sign_signed by (auto; lia). cbn [rbind]. rewrite skip_gap by auto.
    rewrite tok_keyword by (auto; cbn; tauto). cbn [rbind fst snd]. replace (ttype_eqb (parser_dictionary (str "R")) TyRefMarker) with true by reflexivity.
    unfold to_u64, to_u16. replace (Z.of_N (decimal_value dn) <? 0)%Z with false by lia. cbn [rbind].
    replace (Z.of_N (decimal_value dg) <? 0)%Z with false by lia. replace (Z.of_N (decimal_value dg) <=? 65535)%Z with true by lia.
    cbn [rbind]. rewrite !N2Z.id. reflexivity.
  - intros txt l Hl IH rest f Hf _. destruct f as [|f]; [lia|]. cbn [parse_obj app].
    rewrite (skip_of_read _ (91 :: (txt ++ [93]) ++ rest) (TyArrayBegin, []) ((txt ++ [93]) ++ rest)) by (try reflexivity; discriminate).
    cbn [rbind fst]. rewrite <- app_assoc. cbn [app]. rewrite IH by (cbn [List.length] in Hf; rewrite app_length in Hf; cbn [List.length] in Hf; lia). reflexivity.
  - intros txt es m He IH Hm rest f Hf [_ Hl]. destruct f as [|f]; [lia|]. cbn [parse_obj app].
    rewrite (skip_of_read _ (60 :: 60 :: (txt ++ [62; 62]) ++ rest) (TyDictBegin, []) ((txt ++ [62; 62]) ++ rest)) by (try reflexivity; discriminate).
    cbn [rbind fst]. rewrite <- app_assoc. cbn [app]. rewrite IH by (cbn [List.length app] in Hf; rewrite app_length in Hf; cbn [List.length] in Hf; lia).
    cbn [rbind]. unfold read_stream_tail, peek_type_skip. destruct Hl as (t1 & r1 & H1 & H2 & H3 & H4). rewrite H1. cbn [rbind].
    rewrite (not_end _ _ _ H1 _ H3). rewrite (dict_content_collect es m); auto. eapply collect_keys; eauto.
  - intros g Hg rest f Hf. destruct f as [|f]; [lia|]. cbn [parse_array]. rewrite skip_gap by auto.
    rewrite (skip_of_read _ (93 :: rest) (TyArrayEnd, []) rest) by (try reflexivity; discriminate). reflexivity.
  - intros g txt o more l Hg Ho IHo Hm IHm Hs rest f Hf. destruct f as [|f]; [lia|]. cbn [parse_array].
    rewrite !app_length in Hf. assert (Hlen := object_text_nonempty _ _ Ho).
    rewrite <- !app_assoc. rewrite skip_gap by auto.
    assert (Hends : self_delimited o = false -> token_ends (more ++ 93 :: rest)).
    { intros Hd. apply token_ends_app; [auto|right; cbn; tauto]. }
    destruct (first_token_object txt o (more ++ 93 :: rest) Ho Hends) as (t1 & r1 & H1 & H2 & H3). rewrite H1. cbn [rbind].
    rewrite (not_end _ _ _ H1 _ H2). rewrite rts_gap_obj by auto.
    rewrite IHo; [|lia|split; [exact Hends|eapply look_items; eauto]]. cbn [rbind]. rewrite (not_stream _ _ Ho).
    rewrite IHm by lia. reflexivity.
  - intros g Hg rest f acc Hf. destruct f as [|f]; [lia|]. cbn [parse_dict]. rewrite skip_gap by auto.
    rewrite (skip_of_read _ (62 :: 62 :: rest) (TyDictEnd, []) rest) by (try reflexivity; discriminate). reflexivity.
  - intros g kt k g2 txt o more es Hg Hk Hg2 Ho IHo Hm IHm Hs1 Hs2 rest f acc Hf. destruct f as [|f]; [lia|]. cbn [parse_dict].
    rewrite !app_length in Hf. cbn [List.length] in Hf. assert (Hlen := object_text_nonempty _ _ Ho).
    rewrite <- !app_assoc. rewrite skip_gap by auto. cbn [app].
    assert (Hends : self_delimited o = false -> token_ends (more ++ 62 :: 62 :: rest)).
    { intros Hd. apply token_ends_app; [auto|right; cbn; tauto]. }
    assert (Hn : token_ends (g2 ++ txt ++ more ++ 62 :: 62 :: rest)).
    { rewrite !app_assoc. apply token_ends_app; [rewrite <- !app_assoc; assumption|right; cbn; tauto]. }
    rewrite (tok_name _ kt k) by auto. cbn [rbind fst snd ttype_eqb]. rewrite rts_gap_obj by auto.
    assert (Ek : pobj f (47 :: kt ++ g2 ++ txt ++ more ++ 62 :: 62 :: rest) = Ok (OName k, g2 ++ txt ++ more ++ 62 :: 62 :: rest)).
    { destruct f as [|f]; [lia|]. cbn [parse_obj]. rewrite (tok_name _ kt k) by auto. reflexivity. }
    rewrite Ek. cbn [rbind]. rewrite rts_gap_obj by auto.
    rewrite IHo; [|lia|split; [exact Hends|eapply look_entries; eauto]]. cbn [rbind].
    assert (Hrec : forall acc, pdic f (more ++ 62 :: 62 :: rest) acc = Ok (collect acc es, rest)) by (intros; apply IHm; lia).
    assert (Hst := not_stream _ _ Ho). cbn [collect].
    destruct o; try discriminate; rewrite ?Hst; cbn [is_stream]; rewrite ?Hrec; try reflexivity;
      destruct (sm_contains k acc); try rewrite Hrec; reflexivity.
Qed.

Lemma object_end_look : forall rest, object_end rest -> look_ok rest /\ token_ends rest.
Proof.
  intros rest H. destruct H as [g Hg|g rest Hg|g rest Hg|g w rest Hg Hne Hw Hr].
  - split.
    + rewrite <- (app_nil_r g). apply look_gap; [assumption|]. do 2 eexists. split; [reflexivity|]. cbn. repeat split; discriminate.
    + destruct g as [|c g]; [exact I|]. rewrite <- (app_nil_r (c :: g)). apply gap_token_ends; [assumption|discriminate].
  - split.
    + apply look_gap; [assumption|]. do 2 eexists. split; [apply skip_of_read; [reflexivity|discriminate]|]. cbn. repeat split; discriminate.
    + destruct g as [|c g]; [cbn; tauto|]. apply gap_token_ends; [assumption|discriminate].
  - split.
    + apply look_gap; [assumption|]. do 2 eexists. split; [apply skip_of_read; [reflexivity|discriminate]|]. cbn. repeat split; discriminate.
    + destruct g as [|c g]; [cbn; tauto|]. apply gap_token_ends; [assumption|discriminate].
  - split; [|apply gap_token_ends; assumption].
    apply look_gap; [assumption|]. do 2 eexists. split; [apply tok_keyword; [|exact Hr]|].
    + cbn in Hw |- *. tauto.
    + cbn in Hw. repeat (destruct Hw as [<-|Hw]; [cbn; repeat split; discriminate|]). destruct Hw.
Qed.

Lemma parse_text : forall txt o rest, object_text txt o -> object_end rest ->
  parse_direct d resolve_length (txt ++ rest) = Ok (o, rest).
Proof.
  intros txt o rest Ho Hr. apply object_end_look in Hr. destruct Hr as [Hl Ht].
  unfold parse_direct. apply (proj1 reads_text); [exact Ho| |split; auto].
  rewrite app_length. lia.
Qed.
End WithFile.

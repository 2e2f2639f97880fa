(** Proofs about Model/Content.v *)
From Coq Require Import List NArith ZArith Bool String Lia ZifyBool ZifyNat ZifyN.
From Coq Require Import List.
From Verif.Model Require Import Base Char Numbers SMap Object Token Parser Content.
From Verif.Spec Require Import Strings Grammar Content.
From Verif.Proof Require Import Tac Strings SMap Token ParserAny Writer Chain CharMap.
Import ListNotations.
Local Open Scope N_scope.

Notation d := content_dictionary.

Lemma content_kw : keywords_of d.
Proof.
  intros w Hw. unfold parser_keywords in Hw. cbn [In] in Hw.
  repeat (destruct Hw as [<-|Hw]; [vm_compute; reflexivity|]). destruct Hw.
Qed.

Lemma kw_self : forall w, In w content_words -> d w = TyKw w.
Proof.
  intros w Hw. unfold content_dictionary. replace (existsb (bytes_eqb w) content_words) with true; [reflexivity|]. symmetry. apply existsb_exists.
  exists w. split; [exact Hw|]. apply bytes_eqb_eq. reflexivity.
Qed.

(** ** operators *)
Definition no_value (t : ttype) : Prop := is_operand t = false /\ t <> TyEol /\ t <> TyEof /\ t <> TyName.
Lemma operator_type : forall w, operator_word w -> no_value (d w) /\ (forall k, d w = TyKw k -> k = w).
Proof.
  intros w (_ & _ & _ & Hv). unfold content_dictionary. destruct (existsb (bytes_eqb w) content_words).
  - split; [repeat split; discriminate|congruence].
  - unfold parser_dictionary.
    repeat (match goal with |- context [if bytes_eqb w ?x then _ else _] => destruct (bytes_eqb w x) eqn:?E end;
      [try (split; [repeat split; discriminate|congruence]);
       exfalso; apply Hv; match goal with H : bytes_eqb w _ = true |- _ => apply bytes_eqb_eq in H; rewrite H end; cbn; tauto|]).
    split; [repeat split; discriminate|congruence].
Qed.
Lemma operator_read : forall w rest, operator_word w -> token_ends rest -> rts (w ++ rest) = Ok ((d w, w), rest).
Proof.
  intros w rest Hw He. assert (T := operator_type w Hw). destruct Hw as (Hne & Hr & Hf & _). apply tok_word; [| |exact He|].
  - apply forallb_forall. intros c Hc. rewrite Forall_forall in Hr. apply is_regular_spec. auto.
  - destruct w as [|c w]; [congruence|]. destruct (Hf c w eq_refl) as [H1 H2]. cbn [In] in H2. unfold decimal_digit in H1. unfold is_numeric. lia.
  - destruct T as [(_ & T & _) _]. exact T.
Qed.

(** ** operands *)
Lemma operand_nonempty : forall txt o, operand_text txt o -> (1 <= List.length txt)%nat.
Proof. intros txt o H. destruct H as [txt o H _| |]; [exact (object_text_nonempty (fun _ _ => Undef) _ _ H)|cbn; lia|cbn; lia]. Qed.

Lemma operand_token : forall txt o rest, operand_text txt o -> (self_delimited o = false -> token_ends rest) ->
  exists t1 r1, rts (txt ++ rest) = Ok (t1, r1) /\ is_operand (fst t1) = true.
Proof.
  intros txt o rest H Hends. destruct H as [txt o H Hs|txt l H|txt es m H Hm].
  - destruct H; cbn [self_delimited] in Hends; try specialize (Hends eq_refl); try discriminate.
    + do 2 eexists. split; [apply (tok_keyword d content_kw); [cbn; tauto|assumption]|reflexivity].
    + do 2 eexists. split; [apply (tok_keyword d content_kw); [cbn; tauto|assumption]|reflexivity].
    + do 2 eexists. split; [apply (tok_keyword d content_kw); [cbn; tauto|assumption]|reflexivity].
    + do 2 eexists. split; [eapply tok_int; eauto|reflexivity].
    + do 2 eexists. split; [eapply tok_real; eauto|reflexivity].
    + do 2 eexists. split; [cbn [app]; eapply tok_name; eauto|reflexivity].
    + do 2 eexists. split; [cbn [app]; eapply tok_lit; eauto|reflexivity].
    + destruct (tok_hex d txt v rest H) as (raw & Hr & _). do 2 eexists. split; [cbn [app]; exact Hr|reflexivity].
  - do 2 eexists. split; [cbn [app]; apply skip_of_read; [reflexivity|discriminate]|reflexivity].
  - do 2 eexists. split; [cbn [app]; apply skip_of_read; [reflexivity|discriminate]|reflexivity].
Qed.

Scheme operand_text_mut := Induction for operand_text Sort Prop
with elements_text_mut := Induction for elements_text Sort Prop
with fields_text_mut := Induction for fields_text Sort Prop.
Combined Scheme operand_ind from operand_text_mut, elements_text_mut, fields_text_mut.

Lemma fields_keys : forall txt es, fields_text txt es -> keys_bytes es.
Proof. intros txt es H. induction H; constructor; auto. cbn. eapply name_text_bytes; eauto. Qed.

Lemma c_gap_obj : forall g f s, gap g -> c_obj f (g ++ s) = c_obj f s.
Proof. intros g f s Hg. destruct f as [|f]; [reflexivity|]. cbn [c_obj]. rewrite skip_gap by exact Hg. reflexivity. Qed.

Lemma is_operand_not : forall t, is_operand t = true -> ttype_eqb t TyArrayEnd = false /\ ttype_eqb t TyDictEnd = false /\ ttype_eqb t TyEof = false.
Proof. intros t H. destruct t; try discriminate; auto. Qed.

Lemma c_reads :
  (forall txt o, operand_text txt o -> forall rest f, (List.length txt < f)%nat -> (self_delimited o = false -> token_ends rest) ->
      c_obj f (txt ++ rest) = Ok (o, rest)) /\
  (forall txt l, elements_text txt l -> forall rest f, (List.length txt + 1 < f)%nat -> c_array f (txt ++ 93 :: rest) = Ok (l, rest)) /\
  (forall txt es, fields_text txt es -> forall rest f acc, (List.length txt + 1 < f)%nat ->
      c_dict f (txt ++ 62 :: 62 :: rest) acc = Ok (collect acc es, rest)).
Proof.
  apply operand_ind.
  - intros txt o H Hs rest f Hf Hends. destruct f as [|f]; [lia|]. cbn [c_obj].
    destruct H; cbn [self_delimited] in Hends; try specialize (Hends eq_refl); try discriminate.
    + rewrite (tok_keyword d content_kw) by (auto; cbn; tauto). reflexivity.
    + rewrite (tok_keyword d content_kw) by (auto; cbn; tauto). reflexivity.
    + rewrite (tok_keyword d content_kw) by (auto; cbn; tauto). reflexivity.
    + rewrite (tok_int _ s neg) by auto. cbn [rbind fst snd]. rewrite (stoll_decimal s neg ds) by assumption. reflexivity.
    + rewrite (tok_real _ s neg) by auto. cbn [rbind fst snd]. rewrite (create_real_text s neg ip fp) by assumption. reflexivity.
    + cbn [app]. rewrite (tok_name _ txt n) by auto. reflexivity.
    + cbn [app]. rewrite (tok_lit _ txt v) by auto. cbn [rbind fst snd]. rewrite (literal_decode_of txt v H). reflexivity.
    + cbn [app]. destruct (tok_hex d txt v rest H) as (raw & Hr & Hd). rewrite Hr. cbn [rbind fst snd]. rewrite Hd. reflexivity.
  - intros txt l Hl IH rest f Hf _. destruct f as [|f]; [lia|]. cbn [c_obj app].
    rewrite (skip_of_read _ (91 :: (txt ++ [93]) ++ rest) (TyArrayBegin, []) ((txt ++ [93]) ++ rest)) by (try reflexivity; discriminate).
    cbn [rbind fst]. rewrite <- app_assoc. cbn [app]. rewrite IH by (cbn [List.length] in Hf; rewrite app_length in Hf; cbn [List.length] in Hf; lia). reflexivity.
  - intros txt es m He IH Hm rest f Hf _. destruct f as [|f]; [lia|]. cbn [c_obj app].
    rewrite (skip_of_read _ (60 :: 60 :: (txt ++ [62; 62]) ++ rest) (TyDictBegin, []) ((txt ++ [62; 62]) ++ rest)) by (try reflexivity; discriminate).
    cbn [rbind fst]. rewrite <- app_assoc. cbn [app]. rewrite IH by (cbn [List.length app] in Hf; rewrite app_length in Hf; cbn [List.length] in Hf; lia).
    cbn [rbind]. rewrite (dict_content_collect es m); auto. eapply fields_keys; eauto.
  - intros g Hg rest f Hf. destruct f as [|f]; [lia|]. cbn [c_array]. rewrite skip_gap by auto.
    rewrite (skip_of_read _ (93 :: rest) (TyArrayEnd, []) rest) by (try reflexivity; discriminate). reflexivity.
  - intros g txt o more l Hg Ho IHo Hm IHm Hs rest f Hf. destruct f as [|f]; [lia|]. cbn [c_array].
    rewrite !app_length in Hf. assert (Hlen := operand_nonempty _ _ Ho).
    rewrite <- !app_assoc. rewrite skip_gap by auto.
    assert (Hends : self_delimited o = false -> token_ends (more ++ 93 :: rest)).
    { intros Hd. apply token_ends_app; [auto|right; cbn; tauto]. }
    destruct (operand_token txt o (more ++ 93 :: rest) Ho Hends) as (t1 & r1 & H1 & H2). rewrite H1. cbn [rbind].
    rewrite (proj1 (is_operand_not _ H2)). rewrite c_gap_obj by auto.
    rewrite IHo; [|lia|exact Hends]. cbn [rbind]. rewrite IHm by lia. reflexivity.
  - intros g Hg rest f acc Hf. destruct f as [|f]; [lia|]. cbn [c_dict]. rewrite skip_gap by auto.
    rewrite (skip_of_read _ (62 :: 62 :: rest) (TyDictEnd, []) rest) by (try reflexivity; discriminate). reflexivity.
  - intros g kt k g2 txt o more es Hg Hk Hg2 Ho IHo Hm IHm Hs1 Hs2 rest f acc Hf. destruct f as [|f]; [lia|]. cbn [c_dict].
    rewrite !app_length in Hf. cbn [List.length] in Hf. assert (Hlen := operand_nonempty _ _ Ho).
    rewrite <- !app_assoc. rewrite skip_gap by auto. cbn [app].
    assert (Hends : self_delimited o = false -> token_ends (more ++ 62 :: 62 :: rest)).
    { intros Hd. apply token_ends_app; [auto|right; cbn; tauto]. }
    assert (Hn : token_ends (g2 ++ txt ++ more ++ 62 :: 62 :: rest)).
    { rewrite !app_assoc. apply token_ends_app; [rewrite <- !app_assoc; assumption|right; cbn; tauto]. }
    rewrite (tok_name _ kt k) by auto. cbn [rbind fst snd ttype_eqb]. rewrite c_gap_obj by auto.
    assert (Ek : c_obj f (47 :: kt ++ g2 ++ txt ++ more ++ 62 :: 62 :: rest) = Ok (OName k, g2 ++ txt ++ more ++ 62 :: 62 :: rest)).
    { destruct f as [|f]; [lia|]. cbn [c_obj]. rewrite (tok_name _ kt k) by auto. reflexivity. }
    rewrite Ek. cbn [rbind]. rewrite c_gap_obj by auto.
    rewrite IHo; [|lia|exact Hends]. cbn [rbind].
    assert (Hrec : forall acc, c_dict f (more ++ 62 :: 62 :: rest) acc = Ok (collect acc es, rest)) by (intros; apply IHm; lia).
    cbn [collect].
    destruct o; rewrite ?Hrec; try reflexivity; destruct (sm_contains k acc); rewrite ?Hrec; try reflexivity.
Qed.

Lemma direct_read : forall g txt o rest, gap g -> operand_text txt o -> (self_delimited o = false -> token_ends rest) ->
  c_direct (g ++ txt ++ rest) = Ok (o, rest).
Proof.
  intros g txt o rest Hg Ho He. unfold c_direct. rewrite c_gap_obj by exact Hg. apply (proj1 c_reads); [exact Ho| |exact He].
  rewrite !app_length. lia.
Qed.
Lemma peek_operand : forall g txt o rest, gap g -> operand_text txt o -> (self_delimited o = false -> token_ends rest) ->
  exists ty, peek_type_skip d (g ++ txt ++ rest) = Ok ty /\ is_operand ty = true.
Proof.
  intros g txt o rest Hg Ho He. unfold peek_type_skip. rewrite skip_gap by exact Hg.
  destruct (operand_token txt o rest Ho He) as (t1 & r1 & H1 & H2). rewrite H1. cbn [rbind]. eauto.
Qed.
Lemma peek_operator : forall g w rest, gap g -> operator_word w -> token_ends rest -> peek_type_skip d (g ++ w ++ rest) = Ok (d w).
Proof. intros g w rest Hg Hw He. unfold peek_type_skip. rewrite skip_gap by exact Hg. rewrite operator_read by assumption. reflexivity. Qed.

(** ** operations *)
Lemma operation_ends : forall txt l w, operation_text txt (l, w) -> operator_word w /\ (0 < List.length txt)%nat.
Proof.
  intros txt l w H. remember (l, w) as o eqn:E. revert l w E. induction H as [g w' Hg Hw|g txt o more l' w' Hg Ho Hm IH Hs]; intros l w E; inversion E; subst.
  - split; [exact Hw|]. rewrite app_length. destruct Hw as [Hne _]. destruct w; [congruence|cbn; lia].
  - destruct (IH _ _ eq_refl) as [H1 H2]. split; [exact H1|]. rewrite !app_length. lia.
Qed.
Lemma operation_nonempty : forall txt o, operation_text txt o -> txt <> [].
Proof. intros txt [l w] H. destruct (operation_ends _ _ _ H) as [_ H2]. destruct txt; [cbn in H2; lia|discriminate]. Qed.

Lemma token_ends_more : forall a b, a <> [] -> token_ends a -> token_ends (a ++ b).
Proof. intros [|x a] b H Ha; [congruence|]. exact Ha. Qed.

Lemma operands_read : forall txt o, operation_text txt o -> forall rest f, (List.length txt < f)%nat -> token_ends rest ->
  exists g, gap g /\ read_operands f (txt ++ rest) = Ok (fst o, g ++ snd o ++ rest) .
Proof.
  intros txt o H. induction H as [g w Hg Hw|g txt o more l w Hg Ho Hm IH Hs]; intros rest f Hf He; (destruct f as [|f]; [lia|]); cbn [read_operands fst snd].
  - exists g. split; [exact Hg|]. rewrite <- app_assoc. rewrite peek_operator by assumption. cbn [rbind].
    destruct (operator_type w Hw) as [(H1 & _) _]. rewrite H1. reflexivity.
  - rewrite !app_length in Hf. assert (Hl := operand_nonempty _ _ Ho).
    assert (He2 : self_delimited o = false -> token_ends (more ++ rest)).
    { intros E. apply token_ends_more; [eapply operation_nonempty; eauto|auto]. }
    rewrite <- !app_assoc. destruct (peek_operand g txt o (more ++ rest) Hg Ho He2) as (ty & -> & E2). cbn [rbind]. rewrite E2.
    rewrite (direct_read g txt o (more ++ rest) Hg Ho He2). cbn [rbind].
    destruct (IH rest f) as (g' & Hg' & E); [lia|exact He|]. rewrite E. cbn [rbind fst snd]. eauto.
Qed.

Lemma str_eqb : forall a b, bytes_eqb a b = true <-> a = b.
Proof. exact bytes_eqb_eq. Qed.

(** the operations the parser makes: the operators with a class of their own are never generic *)
Definition special : list (list N) := [str "BT"; str "ET"; str "BI"; str "ID"; str "EI"; str "Tf"; str "Tj"; str "TJ"].
Definition canonical (o : op) : Prop := match o with OpGeneric _ w => ~ In w special | _ => True end.
Lemma canonical_seen : forall a b, canonical a -> canonical b -> seen_op a = seen_op b -> a = b.
Proof.
  intros a b Ha Hb E. destruct a, b; cbn [seen_op] in E; try reflexivity; try discriminate E; try (inversion E; subst; reflexivity);
    exfalso; first [apply Ha; apply (f_equal snd) in E; cbn [snd] in E; rewrite E; unfold special; cbn [In]; tauto
                   |apply Hb; apply (f_equal snd) in E; cbn [snd] in E; rewrite <- E; unfold special; cbn [In]; tauto].
Qed.

Lemma existsb_mem : forall w, existsb (bytes_eqb w) content_words = true -> In w content_words.
Proof. intros w H. apply existsb_exists in H. destruct H as (x & Hx & E). apply str_eqb in E. congruence. Qed.
Lemma special_word : forall w, In w special -> In w content_words.
Proof. intros w H. unfold special in H. cbn [In] in H. repeat (destruct H as [<-|H]; [apply existsb_mem; vm_compute; reflexivity|]). destruct H. Qed.

Lemma make_op_seen : forall l w, operator_word w -> well_formed (l, w) -> exists o, make_op l (d w, w) = Ok o /\ seen_op o = (l, w) /\ canonical o.
Proof.
  intros l w Hw (H1 & H2 & H3 & H4). destruct (operator_type w Hw) as [_ Hk]. unfold make_op. cbn [fst snd].
  assert (Hgen : ~ In w special -> exists o, Ok (OpGeneric l w) = Ok o /\ seen_op o = (l, w) /\ canonical o)
    by (intros Hs; eexists; split; [reflexivity|split; [reflexivity|exact Hs]]).
  assert (Hno : (forall k, d w <> TyKw k) -> ~ In w special).
  { intros Hn Hs. apply special_word, kw_self in Hs. exact (Hn _ Hs). }
  destruct (d w) eqn:Ed; try (apply Hgen, Hno; discriminate). rewrite (Hk _ eq_refl) in *. clear Hk Hno s Ed.
  unfold no_operands.
  destruct (bytes_eqb w (str "BT")) eqn:E1; [apply str_eqb in E1; subst w; rewrite (H1 ltac:(cbn [In]; tauto)); eexists; split; [reflexivity|split; [reflexivity|exact I]]|].
  destruct (bytes_eqb w (str "ET")) eqn:E2; [apply str_eqb in E2; subst w; rewrite (H1 ltac:(cbn [In]; tauto)); eexists; split; [reflexivity|split; [reflexivity|exact I]]|].
  destruct (bytes_eqb w (str "BI")) eqn:E3; [apply str_eqb in E3; subst w; rewrite (H1 ltac:(cbn [In]; tauto)); eexists; split; [reflexivity|split; [reflexivity|exact I]]|].
  destruct (bytes_eqb w (str "ID")) eqn:E4; [apply str_eqb in E4; subst w; rewrite (H1 ltac:(cbn [In]; tauto)); eexists; split; [reflexivity|split; [reflexivity|exact I]]|].
  destruct (bytes_eqb w (str "EI")) eqn:E5; [apply str_eqb in E5; subst w; rewrite (H1 ltac:(cbn [In]; tauto)); eexists; split; [reflexivity|split; [reflexivity|exact I]]|].
  destruct (bytes_eqb w (str "Tf")) eqn:E6.
  { apply str_eqb in E6. destruct (H2 E6) as (n & z & -> & Hz). subst w. destruct z; try contradiction; (eexists; split; [reflexivity|split; [reflexivity|exact I]]). }
  destruct (bytes_eqb w (str "Tj")) eqn:E7.
  { apply str_eqb in E7. destruct (H3 E7) as (v & [->| ->]); subst w; (eexists; split; [reflexivity|split; [reflexivity|exact I]]). }
  destruct (bytes_eqb w (str "TJ")) eqn:E8.
  { apply str_eqb in E8. destruct (H4 E8) as (a & ->). subst w. eexists; split; [reflexivity|split; [reflexivity|exact I]]. }
  apply Hgen. intros Hs. unfold special in Hs. cbn [In] in Hs.
  repeat (destruct Hs as [Hs|Hs]; [symmetry in Hs; apply str_eqb in Hs; congruence|]). exact Hs.
Qed.

Lemma operation_read : forall txt o rest, operation_text txt o -> well_formed o -> token_ends rest ->
  exists p, read_operation (txt ++ rest) = Ok (p, rest) /\ seen_op p = o /\ canonical p.
Proof.
  intros txt [l w] rest H Hw He. destruct (operation_ends _ _ _ H) as [Hop _]. unfold read_operation.
  destruct (operands_read txt (l, w) H rest (S (List.length (txt ++ rest)))) as (g & Hg & E); [rewrite app_length; lia|exact He|].
  rewrite E. cbn [rbind fst snd]. rewrite skip_gap by exact Hg. rewrite operator_read by assumption. cbn [rbind].
  destruct (make_op_seen l w Hop Hw) as (p & -> & Hp). cbn [rbind]. eauto.
Qed.

Lemma peek_operation : forall txt o rest, operation_text txt o -> token_ends rest ->
  exists ty, peek_type_skip d (txt ++ rest) = Ok ty /\ ttype_eqb ty TyEof = false.
Proof.
  intros txt o rest H He. destruct H as [g w Hg Hw|g txt o more l w Hg Ho Hm Hs].
  - rewrite <- app_assoc. rewrite peek_operator by assumption. eexists. split; [reflexivity|].
    destruct (operator_type w Hw) as [(_ & _ & H & _) _]. destruct (d w); cbn; congruence.
  - rewrite <- !app_assoc.
    assert (He2 : self_delimited o = false -> token_ends (more ++ rest)).
    { intros E. apply token_ends_more; [eapply operation_nonempty; eauto|auto]. }
    destruct (peek_operand g txt o (more ++ rest) Hg Ho He2) as (ty & E1 & E2). exists ty. split; [exact E1|]. apply is_operand_not; exact E2.
Qed.

Lemma empty_word : forall w, In w [str "BT"; str "ET"; str "BI"; str "ID"; str "EI"] -> well_formed ([], w).
Proof.
  intros w H. unfold well_formed. split; [reflexivity|].
  cbn [In] in H. repeat (destruct H as [<-|H]; [repeat split; intros E; discriminate E|]). destruct H.
Qed.

Lemma word_op_read : forall txt w rest p, operation_text txt ([], w) -> In w [str "BT"; str "ET"; str "BI"; str "ID"; str "EI"] -> token_ends rest ->
  seen_op p = ([], w) -> canonical p -> read_operation (txt ++ rest) = Ok (p, rest).
Proof.
  intros txt w rest p H Hw He Hp Hc. destruct (operation_read txt ([], w) rest H (empty_word w Hw) He) as (q & E & Hq & Hqc).
  rewrite E. rewrite (canonical_seen q p Hqc Hc); [reflexivity|congruence].
Qed.

(** ** text objects *)
Lemma text_nonempty : forall txt l, operations_text txt l -> txt <> [].
Proof. intros txt l H. destruct H as [txt H|txt o more l H]; apply operation_nonempty in H; [exact H|]. destruct txt; [congruence|discriminate]. Qed.
Lemma text_read : forall txt l, operations_text txt l -> forall rest f, (List.length txt < f)%nat -> token_ends rest ->
  exists ps, read_text f (txt ++ rest) = Ok (ps, rest) /\ map seen_op ps = l /\ Forall canonical ps.
Proof.
  intros txt l H. induction H as [txt H|txt o more l H Hw Hn Hm Hl IH]; intros rest f Hf He; (destruct f as [|f]; [lia|]); cbn [read_text].
  - destruct (peek_operation _ _ rest H He) as (ty & E1 & E2). rewrite E1. cbn [rbind]. rewrite E2.
    rewrite (word_op_read txt (str "ET") rest OpEndText H) by (try reflexivity; try assumption; try exact I; cbn [In]; tauto). cbn [rbind].
    exists []. split; [reflexivity|split; [reflexivity|constructor]].
  - rewrite app_length in Hf. assert (Hlen : (0 < List.length txt)%nat) by (apply operation_nonempty in H; destruct txt; [congruence|cbn; lia]).
    assert (Hm2 : token_ends (more ++ rest)) by (apply token_ends_more; [eapply text_nonempty; eauto|exact Hm]).
    rewrite <- app_assoc. destruct (peek_operation _ _ (more ++ rest) H Hm2) as (ty & E1 & E2). rewrite E1. cbn [rbind]. rewrite E2.
    destruct (operation_read txt o (more ++ rest) H Hw Hm2) as (p & E3 & Hp & Hc). rewrite E3. cbn [rbind].
    destruct (IH rest f) as (ps & E4 & E5 & E6); [lia|exact He|]. rewrite E4. cbn [rbind].
    exists (p :: ps). split; [|split; [cbn [map]; congruence|constructor; assumption]].
    destruct p; try reflexivity. exfalso. apply Hn. rewrite <- Hp. reflexivity.
Qed.

(** ** inline images *)
Lemma image_word : operator_word (str "ID").
Proof.
  split; [discriminate|]. split; [|split].
  - unfold pdf_regular. vm_compute. repeat constructor; intros H; intuition discriminate.
  - intros c t E. inversion E; subst. unfold decimal_digit. cbn [In]. split; lia.
  - cbn [In]. intros H. intuition discriminate.
Qed.
Lemma entries_nonempty : forall txt es, image_entries txt es -> txt <> [].
Proof. intros txt es H. destruct H as [g|g]; destruct g; discriminate. Qed.


Lemma image_dict_read : forall txt es, image_entries txt es -> forall rest f acc, (List.length txt < f)%nat -> token_ends rest ->
  sm_sorted acc -> sm_keys_ok acc -> NoDup (map fst es) -> (forall k, In k (map fst es) -> sm_find k acc = None) ->
  exists g, gap g /\ read_image_dict f (txt ++ rest) acc = Ok (collect acc es, g ++ str "ID" ++ rest).
Proof.
  intros txt es H. induction H as [g Hg|g kt k g2 txt o more es Hg Hk Hg2 Ho Ht Hs Hm IH]; intros rest f acc Hf He Hso Hko Hnd Hfree;
    (destruct f as [|f]; [lia|]); cbn [read_image_dict].
  - exists g. split; [exact Hg|]. rewrite <- app_assoc. rewrite (peek_operator g (str "ID") rest Hg image_word He). reflexivity.
  - rewrite !app_length in Hf. cbn [List.length] in Hf.
    assert (Hne := entries_nonempty _ _ Hm).
    assert (He2 : self_delimited o = false -> token_ends (more ++ rest)) by (intros E; apply token_ends_more; auto).
    assert (Ht2 : token_ends (g2 ++ txt ++ more ++ rest)).
    { assert (Hl := operand_nonempty _ _ Ho). rewrite !app_assoc. apply token_ends_more; [|rewrite <- !app_assoc; exact Ht].
      destruct g2; [|discriminate]. destruct txt; [cbn in Hl; lia|discriminate]. }
    rewrite <- !app_assoc. cbn [app].
    assert (E1 : rts (g ++ 47 :: kt ++ g2 ++ txt ++ more ++ rest) = Ok ((TyName, k), g2 ++ txt ++ more ++ rest)).
    { rewrite skip_gap by exact Hg. apply tok_name; assumption. }
    unfold peek_type_skip, expect_skip. rewrite E1. cbn [rbind fst snd ttype_eqb].
    rewrite (direct_read g2 txt o (more ++ rest) Hg2 Ho He2). cbn [rbind].
    cbn [map fst] in Hnd. inversion Hnd as [|? ? Hnk Hnd']; subst.
    assert (Hkb := name_text_bytes _ _ Hk).
    assert (Hf0 : sm_find k acc = None) by (apply Hfree; left; reflexivity).
    assert (Hrec : o <> ONull -> exists g', gap g' /\
      read_image_dict f (more ++ rest) (sm_insert k o acc) = Ok (collect (sm_insert k o acc) es, g' ++ str "ID" ++ rest)).
    { intros _. apply IH; [lia|exact He|apply sm_insert_sorted; exact Hso|apply sm_insert_keys_ok; assumption|exact Hnd'|].
      intros k2 Hk2. assert (Hb2 : all_bytes k2).
      { clear - Hm Hk2. induction Hm as [|? ? ? ? ? ? ? ? ? Hn ? ? ? ? ? IH]; cbn [map In fst] in Hk2; [contradiction|].
        destruct Hk2 as [<-|Hk2]; [eapply name_text_bytes; eauto|auto]. }
      rewrite sm_find_insert by assumption.
      destruct (sm_find k2 acc) eqn:E2; [rewrite (Hfree k2 (or_intror Hk2)) in E2; discriminate|].
      destruct (list_eq_dec N.eq_dec k2 k) as [->|_]; [contradiction|reflexivity]. }
    assert (Hc : sm_contains k acc = false) by (unfold sm_contains; rewrite Hf0; reflexivity).
    cbn [collect]. rewrite Hc.
    assert (Hnull : exists g', gap g' /\ read_image_dict f (more ++ rest) acc = Ok (collect acc es, g' ++ str "ID" ++ rest)).
    { apply IH; [lia|exact He|exact Hso|exact Hko|exact Hnd'|]. intros k2 Hk2. apply Hfree. right. exact Hk2. }
    destruct o; first [exact Hnull|apply Hrec; discriminate].
Qed.

Lemma white_spec : forall c, is_white c = true <-> In c pdf_white.
Proof. intros c. unfold is_white, pdf_white. cbn [In]. lia. Qed.

Definition holding (stage ws : N) (s : list N) : Prop :=
  (stage = 0 /\ s = []) \/ (stage = 1 /\ s = [ws]) \/ (stage = 2 /\ s = [ws; 69]) \/ (stage = 3 /\ s = [ws; 69; 73]).
Lemma marked_before : forall a s, marked s -> marked (a ++ s).
Proof. intros a s (x & y & u & v & Hu & Hv & ->). exists (a ++ x), y, u, v. rewrite <- !app_assoc. auto. Qed.

Lemma image_data_read : forall data stage ws pend after final more,
  holding stage ws pend -> (stage <> 0 -> In ws pdf_white) -> In after pdf_white -> In final pdf_white ->
  ~ marked (pend ++ data ++ [after]) -> ~ (exists a u, In u pdf_white /\ pend ++ data = a ++ [u; 69]) ->
  read_image_data stage ws (data ++ [after] ++ str "EI" ++ [final] ++ more) = Ok (pend ++ data, more).
Proof.
  assert (Hend : forall w final more, In final pdf_white ->
    read_image_data 1 w (str "EI" ++ [final] ++ more) = Ok ([], more)).
  { intros w final more Hf. change (str "EI") with [69; 73]. cbn [app read_image_data N.eqb Pos.eqb andb].
    rewrite (proj2 (white_spec final) Hf). reflexivity. }
  induction data as [|c data IH]; intros stage ws pend after final more Hh Hws Ha Hf Hm He.
  - assert (Ha' := proj2 (white_spec after) Ha). cbn [app] in Hm |- *. rewrite app_nil_r in *.
    destruct Hh as [[-> ->]|[[-> ->]|[[-> ->]|[-> ->]]]]; cbn [read_image_data N.eqb Pos.eqb andb].
    + rewrite Ha'. apply (Hend after); exact Hf.
    + replace (after =? 69) with false by (cbn in Ha; lia). rewrite Ha'.
      assert (E := Hend after final more Hf). cbn [app] in E. rewrite E. reflexivity.
    + exfalso. apply He. exists [], ws. split; [apply Hws; lia|reflexivity].
    + exfalso. apply Hm. exists [], [], ws, after. split; [apply Hws; lia|]. split; [exact Ha|reflexivity].
  - assert (R : forall ws', ~ marked (data ++ [after]) -> ~ (exists a u, In u pdf_white /\ data = a ++ [u; 69]) ->
      read_image_data 0 ws' (data ++ [after] ++ str "EI" ++ [final] ++ more) = Ok (data, more)).
    { intros ws' H1 H2. apply (IH 0 ws' []); auto; [left; auto|congruence]. }
    assert (Hm' : ~ marked (data ++ [after])).
    { intros H. apply Hm. change (pend ++ (c :: data) ++ [after]) with (pend ++ [c] ++ data ++ [after]). rewrite app_assoc. apply marked_before; exact H. }
    assert (He' : ~ (exists a u, In u pdf_white /\ data = a ++ [u; 69])).
    { intros (a & u & Hu & ->). apply He. exists (pend ++ [c] ++ a), u. split; [exact Hu|]. rewrite <- !app_assoc. reflexivity. }
    assert (Hst : forall stage' ws' pend', holding stage' ws' pend' -> (stage' <> 0 -> In ws' pdf_white) -> (exists a, pend ++ [c] = a ++ pend') ->
      read_image_data stage' ws' (data ++ [after] ++ str "EI" ++ [final] ++ more) = Ok (pend' ++ data, more)).
    { intros stage' ws' pend' H1 H2 (a & Ea). apply IH; auto.
      - intros H. apply Hm. change (pend ++ (c :: data) ++ [after]) with (pend ++ [c] ++ data ++ [after]). rewrite app_assoc, Ea, <- app_assoc. apply marked_before; exact H.
      - intros (a' & u & Hu & E). apply He. exists (a ++ a'), u. split; [exact Hu|]. change (pend ++ c :: data) with (pend ++ [c] ++ data).
        rewrite app_assoc, Ea, <- app_assoc, E, app_assoc. reflexivity. }
    clear IH. destruct Hh as [[-> ->]|[[-> ->]|[[-> ->]|[-> ->]]]]; cbn [app read_image_data N.eqb Pos.eqb andb].
    + destruct (is_white c) eqn:Ew.
      * apply (Hst 1 c [c]); [right; left; auto|intros _; apply white_spec; exact Ew|exists []; reflexivity].
      * cbn [app] in R. rewrite R by assumption. reflexivity.
    + destruct (c =? 69) eqn:Ec.
      * replace c with 69 in * by lia. apply (Hst 2 ws [ws; 69]); [right; right; left; auto|intros _; apply Hws; lia|exists []; reflexivity].
      * destruct (is_white c) eqn:Ew.
        { assert (E := Hst 1 c [c]). cbn [app] in E. rewrite E; [reflexivity|right; left; auto|intros _; apply white_spec; exact Ew|exists [ws]; reflexivity]. }
        cbn [app] in R. rewrite R by assumption. reflexivity.
    + destruct (c =? 73) eqn:Ec.
      * replace c with 73 in * by lia. apply (Hst 3 ws [ws; 69; 73]); [right; right; right; auto|intros _; apply Hws; lia|exists []; reflexivity].
      * cbn [app] in R. rewrite R by assumption. reflexivity.
    + destruct (is_white c) eqn:Ew.
      * exfalso. apply Hm. exists [], (data ++ [after]), ws, c. split; [apply Hws; lia|]. split; [apply white_spec; exact Ew|reflexivity].
      * cbn [app] in R. rewrite R by assumption. reflexivity.
Qed.

Lemma white_ends : forall c rest, In c pdf_white -> token_ends (c :: rest).
Proof. intros c rest H. left. exact H. Qed.

Lemma image_keys : forall txt es, image_entries txt es -> keys_bytes es.
Proof. intros txt es H. induction H; constructor; auto. cbn. eapply name_text_bytes; eauto. Qed.

Lemma image_read : forall txt es m before data after final more f, image_entries txt es -> NoDup (map fst es) -> dict_content es m ->
  In before pdf_white -> In after pdf_white -> In final pdf_white -> unmarked before data after ->
  (List.length txt < f)%nat ->
  read_image f (txt ++ [before] ++ data ++ [after] ++ str "EI" ++ [final] ++ more) = Ok (IImage m (before :: data), more).
Proof.
  intros txt es m before data after final more f Ht Hnd Hm Hb Ha Hf [U1 U2] Hlen. unfold read_image.
  set (rest := [before] ++ data ++ [after] ++ str "EI" ++ [final] ++ more).
  destruct (image_dict_read txt es Ht rest f [] Hlen) as (g & Hg & E); [apply white_ends; exact Hb|constructor|constructor|exact Hnd|reflexivity|].
  rewrite E. cbn [rbind]. clear E. rewrite (dict_content_collect es m (image_keys _ _ Ht) Hm).
  rewrite app_assoc. rewrite (word_op_read (g ++ str "ID") (str "ID") rest OpImageData); cycle 1.
  - apply ox_operator; [exact Hg|exact image_word].
  - cbn [In]. tauto.
  - apply white_ends; exact Hb.
  - reflexivity.
  - exact I.
  - cbn [rbind]. unfold rest. change ([before] ++ data ++ [after] ++ str "EI" ++ [final] ++ more) with ((before :: data) ++ [after] ++ str "EI" ++ [final] ++ more).
    rewrite (image_data_read (before :: data) 0 0 [] after final more); auto; [left; auto|congruence].
Qed.

(** ** whole streams *)
Definition canonical_instr (i : instr) : Prop := match i with IOp o => canonical o | IText l => Forall canonical l | IImage _ _ => True end.

Lemma peek_end : forall g, gap g -> peek_type_skip d g = Ok TyEof.
Proof. intros g Hg. unfold peek_type_skip. rewrite <- (app_nil_r g). rewrite skip_gap by exact Hg. reflexivity. Qed.

Lemma content_reads : forall txt l, content_text with_space txt l -> forall f, (List.length txt + 1 < f)%nat ->
  exists is, read_instructions f txt = Ok is /\ map seen is = l /\ Forall canonical_instr is.
Proof.
  intros txt l H. induction H as [g Hg|txt o more l Ho Hw Hn He Hm IH|b txt ops more l Hb Hb2 Ht He Hm IH
    |b txt es m before data after final more l Hb Hb2 Ht Hnd Hdc H1 H2 H3 Hu Hm IH]; intros f Hf; (destruct f as [|f]; [lia|]); cbn [read_instructions].
  - rewrite peek_end by exact Hg. exists []. split; [reflexivity|split; [reflexivity|constructor]].
  - rewrite app_length in Hf. assert (Hl : (0 < List.length txt)%nat) by (apply operation_nonempty in Ho; destruct txt; [congruence|cbn; lia]).
    destruct (peek_operation _ _ more Ho He) as (ty & E1 & E2). rewrite E1. cbn [rbind]. rewrite E2. unfold read_instruction.
    destruct (operation_read txt o more Ho Hw He) as (p & E3 & Hp & Hc). rewrite E3. cbn [rbind].
    destruct (IH f) as (is & E4 & E5 & E6); [lia|].
    exists (IOp p :: is). split; [|split; [cbn [map seen]; congruence|constructor; assumption]].
    destruct p; cbn [rbind]; try (rewrite E4; reflexivity).
    + exfalso. apply Hn. rewrite <- Hp. cbn [seen_op snd In]. tauto.
    + exfalso. apply Hn. rewrite <- Hp. cbn [seen_op snd In]. tauto.
  - rewrite !app_length in Hf.
    assert (Hb3 : token_ends (txt ++ more)) by (apply token_ends_more; [eapply text_nonempty; eauto|exact Hb2]).
    destruct (peek_operation _ _ (txt ++ more) Hb Hb3) as (ty & E1 & E2). rewrite E1. cbn [rbind]. rewrite E2. unfold read_instruction.
    rewrite (word_op_read b (str "BT") (txt ++ more) OpBeginText Hb) by (try reflexivity; try assumption; try exact I; cbn [In]; tauto). cbn [rbind].
    destruct (text_read txt ops Ht more f) as (ps & E3 & E4 & E5); [lia|exact He|]. rewrite E3. cbn [rbind].
    assert (Hl : (0 < List.length b)%nat) by (apply operation_nonempty in Hb; destruct b; [congruence|cbn; lia]).
    destruct (IH f) as (is & E6 & E7 & E8); [lia|]. rewrite E6. cbn [rbind].
    exists (IText ps :: is). split; [reflexivity|split; [cbn [map seen]; congruence|constructor; assumption]].
  - set (tail := [before] ++ data ++ [after] ++ str "EI" ++ [final] ++ more) in *.
    rewrite !app_length in Hf.
    assert (Hb3 : token_ends (txt ++ tail)) by (apply token_ends_more; [eapply entries_nonempty; eauto|exact Hb2]).
    destruct (peek_operation _ _ (txt ++ tail) Hb Hb3) as (ty & E1 & E2). rewrite E1. cbn [rbind]. rewrite E2. unfold read_instruction.
    rewrite (word_op_read b (str "BI") (txt ++ tail) OpBeginImage Hb) by (try reflexivity; try assumption; try exact I; cbn [In]; tauto). cbn [rbind].
    assert (Hl : (0 < List.length b)%nat) by (apply operation_nonempty in Hb; destruct b; [congruence|cbn; lia]).
    unfold tail. rewrite (image_read txt es m before data after final more f) by (try assumption; lia). cbn [rbind].
    assert (Hlt : (List.length more <= List.length tail)%nat) by (unfold tail; rewrite !app_length; lia).
    destruct (IH f) as (is & E6 & E7 & E8); [lia|]. rewrite E6. cbn [rbind].
    exists (IImage m (before :: data) :: is). split; [reflexivity|split; [cbn [map seen]; unfold with_space; congruence|constructor; [exact I|assumption]]].
Qed.

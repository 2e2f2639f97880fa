(** Written content streams are content streams; the parser's bound. *)
From Coq Require Import List NArith ZArith Bool String Lia ZifyBool ZifyNat ZifyN Sorted.
From Coq Require Import List.
From Verif.Model Require Import Base Char Numbers SMap Object Token Parser Content.
From Verif.Spec Require Import Strings Grammar Content.
From Verif.Proof Require Import Tac Strings SMap Token ParserAny Writer Chain CharMap Content.
Import ListNotations.
Local Open Scope N_scope.

(** ** what is written *)
Lemma elements_gap : forall g txt l, gap g -> elements_text txt l -> elements_text (g ++ txt) l.
Proof.
  intros g txt l Hg H. destruct H as [g' Hg'|g' txt o more l Hg' Ho Hm Hs].
  - constructor. apply gap_app; auto.
  - rewrite app_assoc. constructor; auto. apply gap_app; auto.
Qed.
Lemma fields_gap : forall g txt l, gap g -> fields_text txt l -> fields_text (g ++ txt) l.
Proof.
  intros g txt l Hg H. destruct H.
  - constructor. apply gap_app; auto.
  - rewrite app_assoc. constructor; auto. apply gap_app; auto.
Qed.
Lemma elements_join : forall l, Forall (fun o => operand_text (to_pdf o) o) l -> elements_text (join_sp (map to_pdf l)) l.
Proof.
  induction l as [|o l IH]; intros H; [constructor; constructor|]. inversion H as [|? ? Ho Hl]; subst.
  destruct l as [|o2 l].
  - cbn [map join_sp]. replace (to_pdf o) with ([] ++ to_pdf o ++ []) by (cbn; apply app_nil_r).
    constructor; [constructor|assumption|constructor; constructor|intros _; exact I].
  - change (join_sp (map to_pdf (o :: o2 :: l))) with ([] ++ to_pdf o ++ ([32] ++ join_sp (map to_pdf (o2 :: l)))).
    constructor; [constructor|assumption|apply elements_gap; [exact gap_sp|auto]|intros _; cbn; tauto].
Qed.
Lemma fields_join : forall m, Forall (fun e => all_bytes (fst e) /\ operand_text (to_pdf (snd e)) (snd e)) m ->
  fields_text (join_sp (map print_entry m)) m.
Proof.
  induction m as [|[k o] m IH]; intros H; [constructor; constructor|]. inversion H as [|? ? [Hk Ho] Hl]; subst. cbn [fst snd] in *.
  assert (Hn := name_to_string_text k Hk).
  destruct m as [|e2 m].
  - cbn [map join_sp]. unfold print_entry. cbn [fst snd].
    replace ((47 :: name_to_string k) ++ [32] ++ to_pdf o) with ([] ++ (47 :: name_to_string k) ++ [32] ++ to_pdf o ++ []) by (rewrite app_nil_r; reflexivity).
    constructor; [constructor|assumption|exact gap_sp|assumption|constructor; constructor|cbn; tauto|intros _; exact I].
  - change (join_sp (map print_entry ((k, o) :: e2 :: m))) with
      (print_entry (k, o) ++ ([32] ++ join_sp (map print_entry (e2 :: m)))).
    unfold print_entry at 1. cbn [fst snd]. rewrite <- !app_assoc.
    change ((47 :: name_to_string k) ++ [32] ++ to_pdf o ++ [32] ++ join_sp (map print_entry (e2 :: m))) with
      ([] ++ (47 :: name_to_string k) ++ [32] ++ to_pdf o ++ ([32] ++ join_sp (map print_entry (e2 :: m)))).
    constructor; [constructor|assumption|exact gap_sp|assumption|apply fields_gap; [exact gap_sp|auto]|cbn; tauto|intros _; cbn; tauto].
Qed.

Lemma to_pdf_operand : forall o, writable o -> plain o = true -> operand_text (to_pdf o) o.
Proof.
  enough (H : forall k o, (osize o <= k)%nat -> writable o -> plain o = true -> operand_text (to_pdf o) o) by (intros o Ho; apply (H (osize o)); auto).
  induction k as [|k IH]; intros o Hk Ho Hp; [destruct o; cbn in Hk; lia|].
  destruct (scalar o) eqn:Es; [apply od_scalar; [apply to_pdf_text; exact Ho|exact Es]|].
  destruct Ho as [|b|z Hz|neg m p Hpr|n Hn|v Hv|v Hv|num gen Hnum Hgen|l Hl|m Hs Hkeys Hm]; try discriminate; cbn [to_pdf plain] in *.
  - apply od_array. apply elements_join. cbn [osize] in Hk. assert (Hk' : (fold_right (fun o n => osize o + n)%nat O l <= k)%nat) by lia. clear Hk Es.
    induction l as [|o l IHl]; [constructor|]. inversion Hl; subst. cbn [fold_right] in Hk'. cbn [forallb] in Hp. apply andb_true_iff in Hp. destruct Hp.
    constructor; [apply IH; [lia|assumption|assumption]|apply IHl; [assumption|assumption|lia]].
  - apply (od_dict _ m m).
    + apply fields_join. cbn [osize] in Hk. assert (Hk' : (fold_right (fun e n => osize (snd e) + n)%nat O m <= k)%nat) by (apply le_S_n; exact Hk). clear Hk Hs Es.
      induction m as [|[k0 o0] m IHm]; [constructor|]. cbn [map snd] in Hm. inversion Hm; inversion Hkeys as [|? ? [Hb _] ?]; subst. cbn [fold_right snd] in Hk'. cbn [fst] in Hb.
      cbn [forallb snd] in Hp. apply andb_true_iff in Hp. destruct Hp.
      constructor; [split; [assumption|cbn [snd]; apply IH; [lia|assumption|assumption]]|apply IHm; [assumption|assumption|assumption|lia]].
    + apply sorted_content; [assumption|]. eapply Forall_impl; [|exact Hkeys]. cbn. tauto.
Qed.

Lemma operation_gap : forall g txt o, gap g -> operation_text txt o -> operation_text (g ++ txt) o.
Proof. intros g txt o Hg H. destruct H; rewrite app_assoc; constructor; auto; apply gap_app; auto. Qed.
Lemma operations_gap : forall g txt l, gap g -> operations_text txt l -> operations_text (g ++ txt) l.
Proof. intros g txt l Hg H. destruct H; [constructor; apply operation_gap; auto|]. rewrite app_assoc. constructor; auto. apply operation_gap; auto. Qed.
Lemma image_gap : forall g txt l, gap g -> image_entries txt l -> image_entries (g ++ txt) l.
Proof. intros g txt l Hg H. destruct H; rewrite app_assoc; constructor; auto; apply gap_app; auto. Qed.
Lemma content_gap : forall h g txt l, gap g -> content_text h txt l -> content_text h (g ++ txt) l.
Proof.
  intros h g txt l Hg H. destruct H.
  - constructor. apply gap_app; auto.
  - rewrite app_assoc. constructor; auto. apply operation_gap; auto.
  - rewrite app_assoc. constructor; auto. apply operation_gap; auto.
  - rewrite app_assoc. econstructor; eauto. apply operation_gap; auto.
Qed.
Lemma gap_lf : gap [10].
Proof. apply gap_white; [cbn; tauto|constructor]. Qed.

Definition shape (l : list obj) (w : bytes) : bytes := match l with [] => w | _ => join_sp (map to_pdf l) ++ [32] ++ w end.
Lemma op_text_shape : forall o, op_text o = shape (fst (seen_op o)) (snd (seen_op o)).
Proof. intros o. destruct o; cbn [seen_op fst snd shape op_text map join_sp]; try reflexivity. rewrite <- !app_assoc. reflexivity. Qed.
Lemma shape_text : forall l w, Forall (fun o => operand_text (to_pdf o) o) l -> operator_word w -> operation_text (shape l w) (l, w).
Proof.
  induction l as [|o l IH]; intros w H Hw.
  - cbn [shape]. apply (ox_operator []); [constructor|exact Hw].
  - inversion H as [|? ? Ho Hl]; subst. specialize (IH w Hl Hw).
    assert (E : shape (o :: l) w = [] ++ to_pdf o ++ [32] ++ shape l w).
    { cbn [shape app]. destruct l as [|o2 l]; [reflexivity|]. cbn [map join_sp]. rewrite <- !app_assoc. reflexivity. }
    rewrite E. constructor; [constructor|exact Ho|apply operation_gap; [exact gap_sp|exact IH]|intros _; cbn; tauto].
Qed.
Lemma op_written : forall o, writable_operation (seen_op o) -> operation_text (op_text o) (seen_op o) /\ well_formed (seen_op o).
Proof.
  intros o (H1 & H2 & H3 & H4). split; [|exact H2]. rewrite op_text_shape. destruct (seen_op o) as [l w]. cbn [fst snd] in *. apply shape_text; [|exact H1].
  rewrite Forall_forall in *. intros x Hx. apply to_pdf_operand; [auto|]. rewrite forallb_forall in H4. auto.
Qed.

Lemma word_ok : forall w, In w [str "BT"; str "ET"; str "BI"] -> operator_word w.
Proof.
  intros w H. cbn [In] in H.
  assert (G : forall a b, In a [66; 69] -> In b [84; 73] -> operator_word [a; b]).
  { intros a b Ha Hb. cbn [In] in Ha, Hb. split; [discriminate|]. split; [|split].
    - constructor; [|constructor; [|constructor]]; unfold pdf_regular; split; unfold pdf_white, pdf_delimiters; cbn [In]; lia.
    - intros c t E. inversion E; subst. unfold decimal_digit. cbn [In]. split; lia.
    - cbn [In]. intros X. intuition discriminate. }
  destruct H as [<-|[<-|[<-|[]]]]; apply G; cbn; tauto.
Qed.
Lemma word_text : forall w, In w [str "BT"; str "ET"; str "BI"] -> operation_text w ([], w).
Proof. intros w H. apply (ox_operator []); [constructor|apply word_ok; exact H]. Qed.

Lemma text_written : forall l, Forall (fun o => writable_operation (seen_op o) /\ snd (seen_op o) <> str "ET") l ->
  operations_text (concat (map (fun o => op_text o ++ [10]) l) ++ str "ET") (map seen_op l).
Proof.
  induction l as [|o l IH]; intros H.
  - cbn [map concat app]. constructor. apply word_text. cbn [In]. tauto.
  - inversion H as [|? ? [Ho Hn] Hl]; subst. destruct (op_written o Ho) as [H1 H2]. cbn [map concat]. rewrite <- !app_assoc.
    constructor; [exact H1|exact H2|exact Hn|cbn; tauto|]. apply operations_gap; [exact gap_lf|auto].
Qed.

Lemma image_written : forall m, Forall (fun e => all_bytes (fst e) /\ snd e <> ONull /\ writable (snd e) /\ plain (snd e) = true) m ->
  image_entries (concat (map (fun e => (47 :: name_to_string (fst e)) ++ [32] ++ to_pdf (snd e) ++ [10]) m) ++ str "ID") m.
Proof.
  induction m as [|[k o] m IH]; intros H.
  - cbn [map concat app]. apply (ie_data []). constructor.
  - inversion H as [|? ? (H1 & H2 & H3 & H4) Hl]; subst. cbn [fst snd] in *. cbn [map concat fst snd]. rewrite <- !app_assoc.
    apply (ie_entry [] (name_to_string k) k [32]); [constructor|apply name_to_string_text; exact H1|exact gap_sp|apply to_pdf_operand; assumption
      |cbn; tauto|intros _; cbn; tauto|apply image_gap; [exact gap_lf|auto]].
Qed.

Lemma sorted_nodup : forall m : list (list N * obj), keys_sorted m -> NoDup (map fst m).
Proof.
  intros m H. unfold keys_sorted in H. induction H as [|[k v] m Hs IH Ha]; [constructor|]. cbn [map fst]. constructor; [|exact IH].
  intros Hin. apply in_map_iff in Hin. destruct Hin as ([k2 v2] & E & Hin). cbn [fst] in E. subst k2.
  rewrite Forall_forall in Ha. apply Ha in Hin. exact (key_lt_irrefl _ Hin).
Qed.

(** a white space byte is added in front of the data of an image *)

Lemma content_written : forall l, Forall (fun i => writable_instruction (seen i)) l ->
  content_text with_space (write_content l) (map grown (map seen l)).
Proof.
  unfold write_content. induction l as [|i l IH]; intros H; [constructor; constructor|]. inversion H as [|? ? Hi Hl]; subst. specialize (IH Hl).
  cbn [map concat]. rewrite <- app_assoc. assert (IH2 := content_gap with_space [10] _ _ gap_lf IH).
  destruct i as [o|ops|m data]; cbn [seen writable_instruction grown instr_text] in *.
  - destruct Hi as [Ho Hn]. destruct (op_written o Ho) as [H1 H2]. constructor; [exact H1|exact H2|exact Hn|cbn; tauto|exact IH2].
  - rewrite <- !app_assoc. rewrite (app_assoc (concat _)). rewrite (app_assoc [10] (_ ++ _)).
    apply ct_text; [apply word_text; cbn [In]; tauto|cbn; tauto| |cbn; tauto|exact IH2].
    apply operations_gap; [exact gap_lf|]. apply text_written. rewrite Forall_forall in *. intros o Ho. apply Hi. apply in_map. exact Ho.
  - destruct Hi as (H1 & H2 & H3).
    assert (T := ct_image with_space (str "BI") ([10] ++ concat (map (fun e => (47 :: name_to_string (fst e)) ++ [32] ++ to_pdf (snd e) ++ [10]) m) ++ str "ID") m m 10 data 10 10
      (concat (map (fun i => instr_text i ++ [10]) l)) (map grown (map seen l))).
    unfold with_space in T at 2. rewrite <- !app_assoc in T. rewrite <- !app_assoc. cbn [app] in T |- *. apply T.
    + apply word_text. cbn [In]. tauto.
    + cbn; tauto.
    + apply (image_gap [10]); [exact gap_lf|]. exact (image_written m H2).
    + apply sorted_nodup; exact H1.
    + apply sorted_content; [exact H1|]. eapply Forall_impl; [|exact H2]. cbn. tauto.
    + cbn; tauto.
    + cbn; tauto.
    + cbn; tauto.
    + exact H3.
    + exact IH.
Qed.

(** ** the parser makes canonical operations *)
Definition token_shape (tk : token) : Prop := is_operand (fst tk) = true \/ snd tk = [] \/ fst tk = d (snd tk).
Lemma token_aux_shape : forall k s comment tk rest, (List.length s <= k)%nat -> read_token_aux d comment s = Ok (tk, rest) -> token_shape tk.
Proof.
  unfold token_shape. induction k as [|k IH]; intros s comment tk rest Hk H; destruct s as [|c t]; cbn in Hk; try lia;
    try (right; left; cbn in H; inversion H; subst; reflexivity).
  assert (IH' : forall t' cm, read_token_aux d cm t' = Ok (tk, rest) -> (List.length t' <= List.length t)%nat ->
     is_operand (fst tk) = true \/ snd tk = [] \/ fst tk = d (snd tk)).
  { intros t' cm H1 H2. eapply IH; [|exact H1]. lia. }
  cbn [read_token_aux] in H.
  destruct comment.
  { destruct (c =? 13).
    - destruct (match10 (A := res (token * bytes)) t (fun t' => read_token_aux d false t') (read_token_aux d false t)) as [(t' & Et' & E)|[_ E]]; rewrite E in H; try (rewrite Et' in *; clear Et');
        eapply IH'; eauto; cbn; lia.
    - destruct (c =? 10); eapply IH'; eauto. }
  destruct ((c =? 32) || (c =? 12) || (c =? 9) || (c =? 0)); [eapply IH'; eauto|].
  destruct (c =? 37); [eapply IH'; eauto|].
  destruct (c =? 10); [inversion H; subst; auto|].
  destruct (c =? 13).
  { destruct (match10 (A := res (token * bytes)) t (fun t' => Ok ((TyEol, @nil N), t')) (Ok ((TyEol, []), t))) as [(t' & Et' & E)|[_ E]]; rewrite E in H; try (rewrite Et' in *; clear Et');
      inversion H; subst; auto. }
  destruct (c =? 62).
  { destruct (match62 (A := res (token * bytes)) t (fun t' => Ok ((TyDictEnd, @nil N), t')) (Throw EGeneral)) as [(t' & Et' & E)|E]; rewrite E in H; try (rewrite Et' in *; clear Et');
      [|discriminate]. inversion H; subst; auto. }
  destruct (c =? 60).
  { destruct (match60_62 (A := res (token * bytes)) t (fun t' => Ok ((TyDictBegin, @nil N), t')) (fun t' => Ok ((TyHex, @nil N), t'))
       (do '(cs, rest0) <- read_hex t;; Ok ((TyHex, cs), rest0))) as [(t' & Et' & E)|[(t' & Et' & E)|E]]; rewrite E in H; try (rewrite Et' in *; clear Et').
    - inversion H; subst; auto.
    - inversion H; subst; auto.
    - apply rbind_ok in H; destruct H as ([cs r] & H1 & H). inversion H; subst. auto. }
  destruct (c =? 91); [inversion H; subst; auto|].
  destruct (c =? 93); [inversion H; subst; auto|].
  destruct (c =? 47).
  { apply rbind_ok in H; destruct H as ([cs r] & H1 & H). inversion H; subst. auto. }
  destruct (c =? 40).
  { apply rbind_ok in H; destruct H as ([cs r] & H1 & H). inversion H; subst. auto. }
  unfold read_unknown in H. destruct (is_numeric c || (c =? 43) || (c =? 45) || (c =? 46)).
  - destruct (span is_numeric t) as [ds s1]. destruct (c =? 46); [inversion H; subst; auto|].
    left. clear - H. destruct s1 as [|x s1]; [inversion H; reflexivity|].
    destruct x as [|p]; [inversion H; reflexivity|]. do 6 (destruct p as [p|p|]; try (inversion H; reflexivity)).
    destruct (span is_numeric s1). inversion H; reflexivity.
  - destruct (span is_regular t) as [cs s1]. inversion H; subst. auto.
Qed.
Lemma token_skip_shape : forall s tk rest, rts s = Ok (tk, rest) -> token_shape tk.
Proof.
  enough (G : forall k s tk rest, (List.length s <= k)%nat -> rts s = Ok (tk, rest) -> token_shape tk) by (intros s tk rest; apply (G (List.length s)); lia).
  induction k as [|k IH]; intros s tk rest Hk H; rewrite read_token_skip_eq in H; apply rbind_ok in H; destruct H as ([tk1 r1] & H1 & H);
    assert (S1 := token_aux_shape _ _ _ _ _ (le_n _) H1); assert (L := read_token_length _ _ _ _ H1);
    destruct (fst tk1) eqn:Et; try (inversion H; subst; exact S1); (destruct L as [L|[L _]]; [|congruence]); [lia|eapply IH; [|exact H]; lia].
Qed.

Lemma operands_stop : forall f s l r, read_operands f s = Ok (l, r) -> exists ty, peek_type_skip d r = Ok ty /\ is_operand ty = false.
Proof.
  induction f as [|f IH]; intros s l r H; [discriminate|]. cbn [read_operands] in H. apply rbind_ok in H. destruct H as (ty & E1 & H).
  destruct (is_operand ty) eqn:E2.
  - apply rbind_ok in H. destruct H as ([o r1] & E3 & H). apply rbind_ok in H. destruct H as ([l2 r2] & E4 & H). inversion H; subst. eapply IH; eauto.
  - inversion H; subst. eauto.
Qed.
Lemma make_op_canonical : forall l tk o, token_shape tk -> is_operand (fst tk) = false -> make_op l tk = Ok o -> canonical o.
Proof.
  intros l [ty v] o Hs Hn H. unfold token_shape in Hs. unfold make_op in H. cbn [fst snd] in *.
  assert (Hw : ty = d v -> (forall k, ty <> TyKw k) -> ~ In v special).
  { intros E Hk Hin. apply special_word, kw_self in Hin. apply (Hk v). congruence. }
  assert (Hnil : v = [] -> ~ In v special) by (intros -> Hin; unfold special in Hin; cbn [In] in Hin; intuition discriminate).
  assert (Hgen : (forall k, ty <> TyKw k) -> ~ In v special) by (intros Hk; destruct Hs as [Hs|[Hs|Hs]]; [congruence|auto|auto]).
  destruct ty; try (inversion H; subst o; apply Hgen; discriminate).
  clear Hw Hnil Hgen Hs Hn. unfold no_operands in H.
  repeat match goal with H : (if bytes_eqb s ?w then _ else _) = _ |- _ =>
    destruct (bytes_eqb s w) eqn:?E;
    [repeat match goal with H : context [match ?x with _ => _ end] |- _ => is_var x; destruct x; try discriminate H end; inversion H; exact I|] end.
  inversion H; subst o. intros Hin. unfold special in Hin. cbn [In] in Hin.
  repeat (destruct Hin as [Hin|Hin]; [symmetry in Hin; apply bytes_eqb_eq in Hin; congruence|]). exact Hin.
Qed.
Lemma operation_canonical : forall s o r, read_operation s = Ok (o, r) -> canonical o.
Proof.
  intros s o r H. unfold read_operation in H. apply rbind_ok in H. destruct H as ([l r1] & E1 & H). apply rbind_ok in H. destruct H as ([tk r2] & E2 & H).
  apply rbind_ok in H. destruct H as (p & E3 & H). inversion H; subst.
  destruct (operands_stop _ _ _ _ E1) as (ty & E4 & E5). unfold peek_type_skip in E4. rewrite E2 in E4. cbn [rbind] in E4. inversion E4; subst.
  eapply make_op_canonical; [|exact E5|exact E3]. eapply token_skip_shape; eauto.
Qed.
Lemma text_canonical : forall f s l r, read_text f s = Ok (l, r) -> Forall canonical l.
Proof.
  induction f as [|f IH]; intros s l r H; [discriminate|]. cbn [read_text] in H. apply rbind_ok in H. destruct H as (ty & E1 & H).
  destruct (ttype_eqb ty TyEof); [inversion H; constructor|]. apply rbind_ok in H. destruct H as ([o r1] & E2 & H).
  assert (Hc := operation_canonical _ _ _ E2).
  destruct o; try (inversion H; constructor; fail);
    apply rbind_ok in H; destruct H as ([l2 r2] & E3 & H); inversion H; subst; (constructor; [exact Hc|eapply IH; eauto]).
Qed.
Lemma instructions_canonical : forall f s l, read_instructions f s = Ok l -> Forall canonical_instr l.
Proof.
  induction f as [|f IH]; intros s l H; [discriminate|]. cbn [read_instructions] in H. apply rbind_ok in H. destruct H as (ty & E1 & H).
  destruct (ttype_eqb ty TyEof); [inversion H; constructor|]. apply rbind_ok in H. destruct H as ([i r1] & E2 & H).
  apply rbind_ok in H. destruct H as (l2 & E3 & H). inversion H; subst. constructor; [|eapply IH; eauto].
  unfold read_instruction in E2. apply rbind_ok in E2. destruct E2 as ([o r] & E4 & E2). assert (Hc := operation_canonical _ _ _ E4).
  destruct o; try (inversion E2; subst; exact Hc).
  - apply rbind_ok in E2. destruct E2 as ([l3 r3] & E5 & E2). inversion E2; subst. eapply text_canonical; eauto.
  - unfold read_image in E2. apply rbind_ok in E2. destruct E2 as ([m r2] & _ & E2). apply rbind_ok in E2. destruct E2 as ([q r3] & _ & E2).
    apply rbind_ok in E2. destruct E2 as ([dt r4] & _ & E2). inversion E2; subst. exact I.
Qed.

Lemma canonical_list : forall a b, Forall canonical a -> Forall canonical b -> map seen_op a = map seen_op b -> a = b.
Proof.
  induction a as [|x a IH]; intros [|y b] Ha Hb E; try discriminate; [reflexivity|]. inversion Ha; inversion Hb; subst. cbn [map] in E.
  assert (E1 := f_equal (hd (seen_op x)) E). assert (E2 := f_equal (@tl _) E). cbn [hd tl] in E1, E2. f_equal; [apply canonical_seen; assumption|auto].
Qed.
Lemma instrs_equal : forall a b, Forall canonical_instr a -> Forall canonical_instr b -> map seen a = map seen b -> a = b.
Proof.
  induction a as [|x a IH]; intros [|y b] Ha Hb E; try discriminate; [reflexivity|]. inversion Ha; inversion Hb; subst. cbn [map] in E.
  assert (E1 := f_equal (hd (seen x)) E). assert (E2 := f_equal (@tl _) E). cbn [hd tl] in E1, E2. f_equal; [|auto].
  destruct x, y; cbn [seen canonical_instr] in *; try discriminate.
  - injection E1 as E1. f_equal. apply canonical_seen; assumption.
  - injection E1 as E1. f_equal. apply canonical_list; assumption.
  - injection E1 as E1 E1'. congruence.
Qed.

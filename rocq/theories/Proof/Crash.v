(** Proofs about files left behind by an interrupted save. *)
From Coq Require Import List NArith ZArith Bool Lia String Sorted.
From Coq Require Import List.
From Verif.Model Require Import Base Char Numbers SMap Object Token Lines Parser Arith Containers Xref StartXref Header FileWrite Chain Merge Rebuild Update.
From Verif.Spec Require Import Strings Grammar Xref FileWrite Chain Merge Update Rebuild Crash.
From Verif.Proof Require Import Tac Numbers Parser ParserAny Writer StreamObj Xref StartXref FileWrite Rebuild.
From Verif.Proof Require Update CharMap SMap.
From Verif.Props Require Rebuild.
Import ListNotations.
Local Open Scope N_scope.

(** ** events and journals *)
Definition objects_of (l : list (nat * event)) : journal := flat_map (fun x => match snd x with Object n g o => [(n, g, o)] | Trailer _ => [] end) l.
Lemma last_object_latest : forall n l, option_map (fun x => (snd (fst x), snd x)) (last_object n l) = latest n (objects_of l).
Proof.
  intros n. induction l as [|[p [num gen o|m]] l IH]; [reflexivity| |exact IH]. cbn [last_object objects_of flat_map snd app latest]. fold (objects_of l). rewrite <- IH.
  destruct (last_object n l) as [[[q g] o']|]; [reflexivity|]. cbn [option_map]. destruct (num =? n); reflexivity.
Qed.
Lemma last_object_in : forall n l p g o, last_object n l = Some (p, g, o) -> In (p, Object n g o) l.
Proof.
  intros n l p g o. induction l as [|[q [num gen o'|m]] l IH]; cbn [last_object]; [discriminate| |intros X; right; auto].
  destruct (last_object n l) as [x|]; [intros X; right; auto|]. destruct (num =? n) eqn:E; [|discriminate]. intros X. left. apply N.eqb_eq in E. congruence.
Qed.
Lemma objects_app : forall a b, objects_of (a ++ b) = objects_of a ++ objects_of b.
Proof. intros a b. apply flat_map_app. Qed.
Lemma last_trailer_app : forall a b, last_trailer (a ++ b) = match last_trailer b with Some m => Some m | None => last_trailer a end.
Proof.
  induction a as [|[p [num gen o|m]] a IH]; intros b; cbn [app last_trailer]; [destruct (last_trailer b); reflexivity|apply IH|].
  rewrite IH. destruct (last_trailer b); reflexivity.
Qed.

(** ** appending pieces *)
Lemma pieces_app : forall pos a la, pieces pos a la -> forall b lb, pieces (pos + List.length a) b lb -> token_ends b -> pieces pos (a ++ b) (la ++ lb).
Proof.
  intros pos a la H. induction H as [pos|pos lead core ev word more l Hlead Hcore Hsep Hword Hm IH]; intros b lb Hb Te.
  - cbn [List.length app] in *. rewrite Nat.add_0_r in Hb. exact Hb.
  - replace ((lead ++ core ++ more) ++ b) with (lead ++ core ++ (more ++ b)) by (rewrite <- !app_assoc; reflexivity).
    replace ((match ev with Some x => (pos, x) :: l | None => l end) ++ lb) with (match ev with Some x => (pos, x) :: (l ++ lb) | None => l ++ lb end) by (destruct ev; reflexivity).
    apply (pc_piece pos lead core ev word); [exact Hlead|exact Hcore|exact Hsep|intros X; apply token_ends_app; auto|]. apply IH; [|exact Te].
    rewrite !app_length in Hb. replace (pos + List.length lead + List.length core + List.length more)%nat with (pos + (List.length lead + (List.length core + List.length more)))%nat by lia. exact Hb.
Qed.
Lemma lf_end : line_end [10]. Proof. unfold line_end. cbn. tauto. Qed.
Lemma pieces_lf : forall pos lead more l, lead_in lead -> last lead 0 <> 13 -> pieces (pos + List.length lead + 1) more l -> pieces pos (lead ++ [10] ++ more) l.
Proof. intros pos lead more l Hl H13 H. apply (pc_piece pos lead [10] None false more l); [exact Hl|apply ct_line_end, lf_end|tauto|discriminate|exact H]. Qed.
Lemma pieces_lf0 : forall pos more l, pieces (pos + 1) more l -> pieces pos (10 :: more) l.
Proof. intros pos more l H. apply (pieces_lf pos [] more l li_nil); [cbn; lia|]. cbn [List.length]. rewrite Nat.add_0_r. exact H. Qed.

Definition fine (w : N * N * obj) : Prop := fst (fst w) < 2 ^ 63 /\ snd (fst w) <= 65535 /\ stored (snd w) /\ not_xref (snd w).
Definition text_of (w : journal) : bytes := flat_map (fun x => write_object (fst (fst x)) (snd (fst x)) (snd x)) w.
Lemma objects_pieces0 : forall w pos lead, w <> [] -> lead_in lead -> Forall fine w ->
  exists x evs, text_of w = x ++ str "endobj" ++ [10] /\ pieces pos (lead ++ x ++ str "endobj") evs /\ objects_of evs = w /\ last_trailer evs = None.
Proof.
  induction w as [|[[n g] o] w IH]; intros pos lead Hne Hlead Hw; [congruence|]. apply Forall_cons_iff in Hw as [(Hn & Hg & Ho & Hx) Hw]. cbn [fst snd] in *.
  destruct (write_object_core n g o ltac:(change (2 ^ 64) with 18446744073709551616; change (2 ^ 63) with 9223372036854775808 in Hn; lia) Hg Ho Hx) as (core & Eb & Hcore & Hhd).
  assert (Eo : write_object n g o = (to_string_N n ++ [32] ++ to_string_N g ++ [32] ++ str "obj" ++ [10] ++ to_pdf o ++ [10]) ++ str "endobj" ++ [10]) by (unfold write_object; rewrite <- !app_assoc; reflexivity).
  cbn [text_of flat_map fst snd] in *. fold (text_of w) in *. destruct w as [|x w].
  - exists (to_string_N n ++ [32] ++ to_string_N g ++ [32] ++ str "obj" ++ [10] ++ to_pdf o ++ [10]), [(pos, Object n g o)]. cbn [text_of flat_map]. rewrite app_nil_r. split; [exact Eo|]. split; [|split; reflexivity].
    assert (Ec : core = (to_string_N n ++ [32] ++ to_string_N g ++ [32] ++ str "obj" ++ [10] ++ to_pdf o ++ [10]) ++ str "endobj").
    { apply (app_inv_tail [10]). rewrite <- Eb, Eo. rewrite <- !app_assoc. reflexivity. }
    rewrite <- Ec. rewrite <- (app_nil_r core). apply (pc_piece pos lead core (Some (Object n g o)) true [] []); [exact Hlead|exact Hcore|tauto|intros _; exact I|constructor].
  - destruct (IH (pos + List.length lead + List.length core + 1)%nat [] ltac:(discriminate) li_nil Hw) as (y & evs & Ey & Hp & E1 & E2).
    exists (core ++ [10] ++ y), ((pos, Object n g o) :: evs). rewrite Ey, Eb. split; [rewrite <- !app_assoc; reflexivity|]. split; [|split; [cbn [objects_of flat_map snd app]; fold (objects_of evs); rewrite E1; reflexivity|exact E2]].
    rewrite <- !app_assoc. apply (pc_piece pos lead core (Some (Object n g o)) true ([10] ++ y ++ str "endobj") evs); [exact Hlead|exact Hcore|tauto|intros _; left; cbn; tauto|].
    apply pieces_lf0. exact Hp.
Qed.
Lemma objects_pieces : forall w pos lead more l, w <> [] -> lead_in lead -> Forall fine w -> pieces (pos + List.length lead + List.length (text_of w)) more l ->
  exists evs, pieces pos (lead ++ text_of w ++ more) (evs ++ l) /\ objects_of evs = w /\ last_trailer evs = None.
Proof.
  intros w pos lead more l Hne Hlead Hw Hm. destruct (objects_pieces0 w pos lead Hne Hlead Hw) as (x & evs & Ex & Hp & E1 & E2). exists evs. split; [|auto].
  rewrite Ex in *. replace (lead ++ (x ++ str "endobj" ++ [10]) ++ more) with ((lead ++ x ++ str "endobj") ++ 10 :: more) by (rewrite <- !app_assoc; reflexivity).
  apply pieces_app; [exact Hp| |left; cbn; tauto]. apply pieces_lf0. rewrite !app_length in *. cbn [List.length] in Hm.
  replace (pos + (List.length lead + (List.length x + List.length (str "endobj"))) + 1)%nat with (pos + List.length lead + (List.length x + (List.length (str "endobj") + 1)))%nat by lia. exact Hm.
Qed.

(** ** tables as pieces *)
Definition row_ok (e : xentry) : Prop := match xdata e with KUsed z _ => (0 <= z)%Z | _ => True end.
Lemma fmt_digits : forall w z, (0 <= z)%Z -> digits_text (fmt_0 w z).
Proof. intros w z Hz. replace z with (Z.of_N (Z.to_N z)) by lia. rewrite fmt_0_ok. destruct (padded_decimal w (Z.to_N z)) as (H1 & H2 & _). split; assumption. Qed.
Lemma blank32 : Forall blank [32]. Proof. constructor; [unfold blank; cbn; tauto|constructor]. Qed.
Lemma row_core : forall e, row_ok e -> table_row e = [] \/ core_text (table_row e) None false.
Proof.
  assert (H : forall a b c, digits_text a -> digits_text b -> c = 110 \/ c = 102 -> core_text (a ++ [32] ++ b ++ [32] ++ [c] ++ [32] ++ [10]) None false).
  { intros a b c Ha Hb Hc. apply (ct_row a [32] b [32] [c] [32] [10]); try assumption; try discriminate; try exact blank32; try exact lf_end.
    - constructor; [|constructor]. unfold pdf_regular. destruct Hc as [-> | ->]; cbn; lia.
    - destruct Hc as [-> | ->]; cbn; lia.
    - constructor; [lia|constructor].
    - left. cbn. tauto. }
  intros e He. unfold row_ok in He. unfold table_row. destruct (xdata e) as [next|z []|a b]; [| |left; reflexivity|left; reflexivity]; right; apply H; try (apply fmt_digits; lia); auto.
Qed.
Lemma none_piece : forall pos core more l, core_text core None false -> pieces (pos + List.length core) more l -> pieces pos (core ++ more) l.
Proof.
  intros pos core more l Hc Hm. apply (pc_piece pos [] core None false more l); [constructor|exact Hc|cbn; lia|discriminate|]. cbn [List.length]. rewrite Nat.add_0_r. exact Hm.
Qed.
Lemma rows_pieces : forall t pos more l, Forall row_ok t -> pieces (pos + List.length (flat_map table_row t)) more l -> pieces pos (flat_map table_row t ++ more) l.
Proof.
  induction t as [|e t IH]; intros pos more l Ht Hm; cbn [flat_map app List.length] in *; [rewrite Nat.add_0_r in Hm; exact Hm|].
  apply Forall_cons_iff in Ht as [He Ht]. rewrite app_length in Hm. rewrite <- app_assoc. assert (Hr : pieces (pos + List.length (table_row e)) (flat_map table_row t ++ more) l).
  { apply IH; [exact Ht|]. rewrite <- Nat.add_assoc. exact Hm. }
  destruct (row_core e He) as [E|Hc]; [rewrite E in *; cbn [List.length app] in *; rewrite Nat.add_0_r in Hr; exact Hr|]. apply none_piece; assumption.
Qed.
Lemma Forall_firstn_skipn : forall A (P : A -> Prop) n l, Forall P l -> Forall P (firstn n l) /\ Forall P (skipn n l).
Proof. intros A P n l H. rewrite <- (firstn_skipn n l) in H. apply Forall_app in H. exact H. Qed.
Lemma subsections_pieces : forall fuel t s, write_subsections fuel t = Ok s -> Forall row_ok t -> forall pos more l, pieces (pos + List.length s) more l -> pieces pos (s ++ more) l.
Proof.
  induction fuel as [|f IH]; intros t s Hs Ht pos more l Hm.
  - destruct t; [|discriminate Hs]. apply Ok_inj in Hs. subst s. cbn [List.length app] in *. rewrite Nat.add_0_r in Hm. exact Hm.
  - destruct t as [|first t]; [apply Ok_inj in Hs; subst s; cbn [List.length app] in *; rewrite Nat.add_0_r in Hm; exact Hm|].
    cbn [write_subsections] in Hs. apply rbind_ok in Hs. destruct Hs as (n & _ & Hs). apply rbind_ok in Hs. destruct Hs as (r & Er & Hs). apply Ok_inj in Hs. subst s.
    destruct (Forall_firstn_skipn _ row_ok (N.to_nat n) _ Ht) as [H1 H2]. set (rows := firstn (N.to_nat n) (first :: t)) in *. clearbody rows.
    replace (to_string_N (xnum first) ++ [32] ++ to_string_N n ++ [10] ++ flat_map table_row rows ++ r) with
      ((to_string_N (xnum first) ++ [32] ++ to_string_N n ++ [] ++ [10]) ++ flat_map table_row rows ++ r) in * by (rewrite <- !app_assoc; reflexivity).
    rewrite <- app_assoc. apply none_piece.
    { apply ct_subsection; [apply digits_ok|apply digits_ok|exact blank32|discriminate|constructor|exact lf_end]. }
    rewrite <- app_assoc. apply rows_pieces; [exact H1|]. apply (IH _ _ Er H2). rewrite app_length in Hm. rewrite (app_length (flat_map table_row rows)) in Hm. rewrite <- !Nat.add_assoc. exact Hm.
Qed.
Lemma xref_word : core_text (str "xref" ++ [10]) None false.
Proof.
  apply (ct_words (str "xref") [] [10]); try discriminate; [apply Forall_forall; intros c Hc; split; cbn in *; lia|cbn; lia|constructor|exact lf_end|left; cbn; tauto].
Qed.
(** the section behind its objects, without the end marker *)
Definition continues (more : bytes) (x : option (list (bytes * obj))) : Prop := forall pos lead, lead_in lead -> last lead 0 <> 13 ->
  exists l, pieces pos (lead ++ more) l /\ objects_of l = [] /\ last_trailer l = x.
Lemma table_pieces : forall t m table off, Forall row_ok t -> writable (ODict m) -> write_xref_table t (ODict m) = Ok table -> (0 <= off < 2 ^ 63)%Z ->
  continues ([10] ++ table) (Some m) /\ continues ([10] ++ table ++ str "startxref" ++ [10] ++ to_string_Z off ++ [10]) (Some m).
Proof.
  intros t m table off Ht Hm Htab Hoff. unfold write_xref_table in Htab. apply rbind_ok in Htab. destruct Htab as (subs & Es & Htab). apply Ok_inj in Htab. subst table.
  assert (Hgen : forall more, (forall pos, pieces pos more []) -> continues ([10] ++ (str "xref" ++ [10] ++ subs ++ str "trailer" ++ [10] ++ to_pdf (ODict m) ++ [10]) ++ more) (Some m)).
  { intros more Hmore pos lead Hlead H13. set (p := (pos + List.length lead + 1 + List.length (str "xref" ++ [10%N]) + List.length subs)%nat). exists [(p, Trailer m)].
    split; [|split; reflexivity]. apply pieces_lf; [exact Hlead|exact H13|]. rewrite <- !app_assoc. rewrite (app_assoc (str "xref") [10]). apply none_piece; [exact xref_word|].
    apply (subsections_pieces _ _ _ Es Ht). fold p.
    replace (str "trailer" ++ [10] ++ to_pdf (ODict m) ++ [10] ++ more) with ([] ++ (str "trailer" ++ [10] ++ to_pdf (ODict m)) ++ [10] ++ more) by (rewrite <- !app_assoc; reflexivity).
    apply (pc_piece p [] _ (Some (Trailer m)) false); [constructor|apply ct_trailer; [exact gap10|apply to_pdf_text, Hm]|cbn; lia|discriminate|].
    apply pieces_lf0. apply Hmore. }
  split.
  - specialize (Hgen [] pc_nil). rewrite app_nil_r in Hgen. exact Hgen.
  - specialize (Hgen (str "startxref" ++ [10] ++ to_string_Z off ++ [10])). rewrite <- !app_assoc in *. apply Hgen. intros q.
    replace (str "startxref" ++ [10] ++ to_string_Z off ++ [10]) with ([] ++ (str "startxref" ++ [10] ++ to_string_Z off) ++ [10]) by (rewrite <- !app_assoc; reflexivity).
    apply (pc_piece q [] _ None true); [constructor| |cbn; lia|intros _; left; cbn; tauto|apply pieces_lf0; constructor].
    assert (Ez : to_string_Z off = to_string_N (Z.to_N off)) by (unfold to_string_Z; replace (off <? 0)%Z with false by lia; reflexivity).
    rewrite Ez. destruct (digits_ok (Z.to_N off)) as (D1 & D2). apply ct_startxref; [exact gap10|discriminate|exact D1|]. rewrite D2. change (2 ^ 63)%Z with 9223372036854775808%Z in Hoff. change (2 ^ 63) with 9223372036854775808. lia.
Qed.
Lemma section_pieces : forall w more x pos lead, continues more x -> Forall fine w -> lead_in lead -> last lead 0 <> 13 ->
  exists l, pieces pos (lead ++ text_of w ++ more) l /\ objects_of l = w /\ last_trailer l = x.
Proof.
  intros w more x pos lead Hm Hw Hl H13. destruct w as [|a w]; [apply Hm; assumption|].
  destruct (Hm (pos + List.length lead + List.length (text_of (a :: w)))%nat [] li_nil ltac:(cbn; lia)) as (l & Hp & E1 & E2).
  destruct (objects_pieces (a :: w) pos lead more l ltac:(discriminate) Hl Hw Hp) as (evs & Hp2 & E3 & E4). exists (evs ++ l). split; [exact Hp2|].
  rewrite objects_app, last_trailer_app, E1, E2, E3, E4, app_nil_r. split; [reflexivity|]. destruct x; reflexivity.
Qed.

(** ** sections *)
Lemma written_text : forall l q, Forall (fun p => entry_saveable (fst p)) l ->
  fst (write_objects None q l) = text_of (flat_map in_use l) /\ Forall row_ok (map fst (snd (write_objects None q l))).
Proof.
  induction l as [|[e o] l IH]; intros q Hl; [split; [reflexivity|constructor]|]. apply Forall_cons_iff in Hl as [(_ & _ & Hd) Hl]. cbn [fst] in Hd. cbn [write_objects is_self flat_map fst snd]. unfold in_use at 1. cbn [fst snd].
  destruct (xdata e) as [next|off u|a b] eqn:Ed; [|subst u|destruct Hd].
  - destruct (IH q Hl) as [E1 E2]. destruct (write_objects None q l) as [txt l2]. cbn [fst snd map app] in *. split; [exact E1|]. constructor; [unfold row_ok; rewrite Ed; exact I|exact E2].
  - destruct (IH (q + N.of_nat (List.length (write_object (xnum e) (xgen e) o))) Hl) as [E1 E2]. destruct (write_objects None _ l) as [txt l2]. cbn [fst snd map app] in *.
    split; [cbn [text_of flat_map fst snd]; rewrite E1; reflexivity|]. constructor; [unfold row_ok; cbn [xdata]; lia|exact E2].
Qed.
Definition same_written (a b : N * N * obj) : Prop := fst a = fst b /\ same_object (snd a) (snd b).
(** what append_section adds *)
Lemma section_written : forall out l trailer out' off, Forall (fun p => entry_saveable (fst p) /\ (used_in_use (fst p) -> storable (snd p))) l ->
  plain (flat_map in_use l) -> N.of_nat (List.length l) < 2 ^ 63 -> writable (ODict trailer) -> append_section out l trailer = Ok (out', off) -> (Z.of_nat (List.length out') < 2 ^ 63)%Z ->
  exists w table m', Forall2 same_written (flat_map in_use l) w /\ Forall fine w /\ m' = set_size trailer (N.of_nat (List.length l)) /\
    out' = out ++ text_of w ++ [10] ++ table ++ (str "startxref" ++ [10] ++ to_string_Z off ++ [10]) ++ str "%%EOF" ++ [10] /\
    (exists x, [10] ++ table = [10; 120; 114; 101; 102; 10] ++ x) /\ (exists x, table = x ++ [62; 62; 10]) /\
    continues ([10] ++ table) (Some m') /\ continues ([10] ++ table ++ str "startxref" ++ [10] ++ to_string_Z off ++ [10]) (Some m').
Proof.
  intros out l trailer out' off Hl Hpl Hcnt Ht H Hfit. unfold append_section in H. destruct (recalculate_lengths_ok l Hl) as (l1 & E1 & F1). rewrite E1 in H. cbn [rbind] in H.
  assert (Hl1 : Forall (fun p => entry_saveable (fst p)) l1).
  { clear - Hl F1. induction F1 as [|a b l l1 (K & _) F IH]; [constructor|]. inversion Hl as [|? ? (A & _) H]; subst. constructor; [rewrite K; auto|auto]. }
  assert (Elen : List.length l1 = List.length l) by (clear - F1; induction F1; cbn; auto).
  assert (Esz : recalculate_size (map fst l1) = N.of_nat (List.length l)) by (unfold recalculate_size; rewrite map_length, Elen; reflexivity). rewrite Esz in H.
  destruct (written_text l1 (N.of_nat (List.length out)) Hl1) as [Etext Hrows].
  destruct (write_objects None (N.of_nat (List.length out)) l1) as [body l2]. cbn [fst snd] in *. apply rbind_ok in H. destruct H as (table & Etab & H). apply Ok_inj in H.
  apply pair_equal_spec in H as [Eout Eoff]. 
  assert (Hwm : writable (ODict (set_size trailer (N.of_nat (List.length l))))) by (apply Update.size_written; assumption).
  exists (flat_map in_use l1), table, (set_size trailer (N.of_nat (List.length l))). split; [|split; [|split; [reflexivity|split; [|split; [|split]]]]].
  - clear - F1. induction F1 as [|[ea oa] [eb ob] l l1 (K & K2) F IH]; [constructor|]. cbn [flat_map fst snd] in *. subst eb. unfold in_use at 1 3. cbn [fst snd]. unfold used_in_use in K2.
    destruct (xdata ea) as [|? []|]; cbn [app]; try exact IH. constructor; [split; [reflexivity|apply K2; exact I]|exact IH].
  - clear - F1 Hl Hpl. induction F1 as [|[ea oa] [eb ob] l l1 (K & K2) F IH]; [constructor|]. apply Forall_cons_iff in Hl as [((A1 & A2 & A3) & _) Hl].
    cbn [flat_map fst snd] in *. subst eb. apply Forall_app in Hpl as [P1 P2]. apply Forall_app. split; [|apply IH; assumption]. unfold in_use in *. cbn [fst snd] in *. unfold used_in_use in K2.
    destruct (xdata ea) as [|? []|]; try constructor; [|constructor]. destruct (K2 I) as [S1 S2]. repeat split; cbn [fst snd]; try assumption.
    apply (same_not_xref _ _ S1). apply Forall_cons_iff in P1 as [P1 _]. exact P1.
  - rewrite <- Eout, Eoff, Etext. unfold write_xref_offset. rewrite <- !app_assoc. reflexivity.
  - unfold write_xref_table in Etab. apply rbind_ok in Etab. destruct Etab as (subs & _ & Etab). apply Ok_inj in Etab. rewrite <- Etab. eexists. reflexivity.
  - unfold write_xref_table in Etab. apply rbind_ok in Etab. destruct Etab as (subs & _ & Etab). apply Ok_inj in Etab. rewrite <- Etab.
    destruct (CharMap.dict_head _ _ (to_pdf_text _ Hwm)) as (t & es & -> & _). eexists (str "xref" ++ [10] ++ subs ++ str "trailer" ++ [10] ++ [60; 60] ++ t). rewrite <- !app_assoc. reflexivity.
  - apply (table_pieces (map fst l2)); try assumption. rewrite <- Eout, Eoff in Hfit. rewrite !app_length in Hfit. rewrite <- Eoff. rewrite !app_length. lia.
Qed.

(** ** what a saved file is made of *)
Definition made (v : version) (file : bytes) (w : journal) (x : option (list (bytes * obj))) : Prop := exists text fin evs,
  file = text ++ fin /\ pieces 0 text evs /\ lead_in fin /\ last fin 0 <> 13 /\ hd 0 fin = 37 /\ objects_of evs = w /\ Forall fine w /\ last_trailer evs = x /\
  exists y, file = write_header v ++ y.
Lemma header_lead : forall v, lead_in (write_header v).
Proof.
  intros v. unfold write_header. change (lead_in (37 :: (str "PDF-" ++ version_text v) ++ [10] ++ 37 :: [222; 173; 192; 222] ++ [10] ++ [])).
  apply li_comment; [destruct v; cbn; repeat constructor; discriminate|unfold line_end; cbn; tauto|].
  apply li_comment; [repeat constructor; discriminate|unfold line_end; cbn; tauto|constructor].
Qed.
Lemma made_header : forall v, made v (write_header v) [] None.
Proof.
  intros v. exists [], (write_header v), []. split; [reflexivity|]. split; [apply pc_nil|]. split; [apply header_lead|]. split; [destruct v; cbn; lia|]. split; [reflexivity|].
  split; [reflexivity|]. split; [constructor|]. split; [reflexivity|]. exists []. rewrite app_nil_r. reflexivity.
Qed.
Lemma percent_end : forall s, hd 0 s = 37 -> token_ends s.
Proof. intros [|c s] H; [exact I|]. cbn in H. subst c. right. cbn. tauto. Qed.
Lemma hd_app : forall a b : bytes, hd 0 a = 37 -> hd 0 (a ++ b) = 37.
Proof. intros [|c a] b H; [discriminate H|exact H]. Qed.
Lemma eof_lead : lead_in (str "%%EOF" ++ [10]).
Proof. change (lead_in (37 :: str "%EOF" ++ [10] ++ [])). apply li_comment; [repeat constructor; discriminate|exact lf_end|constructor]. Qed.
(** a section behind a saved file *)
Lemma made_more : forall v out j x (ex : bool) w more m' tail, made v out j x -> Forall fine w -> continues more (Some m') -> lead_in tail -> last tail 0 <> 13 -> hd 0 tail = 37 ->
  made v (out ++ (if ex then [10] else []) ++ text_of w ++ more ++ tail) (j ++ w) (Some m').
Proof.
  intros v out j x ex w more m' tail (text & fin & evs & E & Hp & Hl & H13 & Hh & Eo & Hj & Et & y & Ey) Hw Hm T1 T2 T3.
  assert (G : exists l, pieces (0 + List.length text) (fin ++ (if ex then [10] else []) ++ text_of w ++ more) l /\ objects_of l = w /\ last_trailer l = Some m').
  { destruct ex; [|apply section_pieces; assumption].
    destruct (section_pieces w more (Some m') (0 + List.length text + List.length fin + 1)%nat [] Hm Hw li_nil ltac:(cbn; lia)) as (l & P1 & P2 & P3).
    exists l. split; [|auto]. apply pieces_lf; assumption. }
  destruct G as (l & P1 & P2 & P3). exists (text ++ fin ++ (if ex then [10] else []) ++ text_of w ++ more), tail, (evs ++ l).
  split; [rewrite E, <- !app_assoc; reflexivity|]. split; [apply pieces_app; [exact Hp|exact P1|apply percent_end, hd_app, Hh]|]. split; [exact T1|]. split; [exact T2|]. split; [exact T3|].
  rewrite objects_app, last_trailer_app, Eo, P2, P3. split; [reflexivity|]. split; [apply Forall_app; auto|]. split; [reflexivity|].
  eexists. rewrite Ey, <- app_assoc. reflexivity.
Qed.
Lemma document_key : forall k, In k document_keys -> all_bytes k /\ k <> str "Size" /\ k <> str "Prev" /\ In k trailer_keys.
Proof.
  intros k Hk. unfold document_keys in Hk. cbn [In] in Hk. destruct Hk as [<-|[<-|[<-|[<-|[]]]]]; (split; [apply str_bytes|]; split; [discriminate|]; split; [discriminate|unfold trailer_keys; cbn; tauto]).
Qed.
Definition holds (v : version) (file : bytes) (j : journal) (m : list (bytes * obj)) : Prop := exists w m', made v file w (Some m') /\ Forall2 same_written j w /\
  forall k, In k document_keys -> sm_find k m' = sm_find k m.
Lemma tables_made : forall v c l m out prev j w x file, made v out w x -> Forall2 same_written j w -> (forall p, prev = Some p -> (0 <= p < 2 ^ 63)%Z) ->
  Forall section_saveable (c ++ [(l, m)]) -> plain (saved_objects (c ++ [(l, m)])) -> append_sections out prev (c ++ [(l, m)]) = Ok file -> (Z.of_nat (List.length file) < 2 ^ 63)%Z ->
  holds v file (j ++ saved_objects (c ++ [(l, m)])) m.
Proof.
  intros v c. induction c as [|[l0 m0] c IH]; intros l m out prev j w x file Hmade F Hprev Hs Hpl H Hfit; cbn [app] in *.
  - cbn [append_sections] in H. apply rbind_ok in H. destruct H as (m1 & Em & H). apply rbind_ok in H. destruct H as ([out' off] & Ea & H). apply Ok_inj in H. subst out'.
    apply Forall_cons_iff in Hs as [(S1 & S2 & S3 & S4 & S5) _]. cbn [fst snd] in *. cbn [saved_objects flat_map fst] in Hpl. rewrite app_nil_r in Hpl.
    assert (G : writable (ODict m1) /\ forall k, In k document_keys -> sm_find k m1 = sm_find k m).
    { destruct prev as [p|]; [|apply Ok_inj in Em; subst m1; auto]. destruct (Update.prev_written m p m1 S3 (Hprev p eq_refl) Em) as (A & _ & _ & B). split; [exact A|].
      intros k Hk. destruct (document_key k Hk) as (D1 & D2 & D3 & D4). apply B; assumption. }
    destruct G as [G1 G2]. destruct (section_written out l m1 file off (Update.saveable_used (fun _ _ => Throw EGeneral) _ S2) Hpl S5 G1 Ea Hfit) as (w1 & table & m' & W1 & W2 & W3 & W4 & _ & _ & _ & W5).
    exists (w ++ w1), m'. split; [|split].
    + rewrite W4. replace (out ++ text_of w1 ++ [10] ++ table ++ (str "startxref" ++ [10] ++ to_string_Z off ++ [10]) ++ str "%%EOF" ++ [10]) with
        (out ++ [] ++ text_of w1 ++ ([10] ++ table ++ str "startxref" ++ [10] ++ to_string_Z off ++ [10]) ++ (str "%%EOF" ++ [10])) by (rewrite <- !app_assoc; reflexivity).
      apply (made_more v out w x false w1); try assumption; [exact eof_lead|cbn; lia|reflexivity].
    + cbn [saved_objects flat_map fst]. rewrite app_nil_r. apply Forall2_app; assumption.
    + intros k Hk. destruct (document_key k Hk) as (D1 & D2 & D3 & D4). rewrite W3. destruct (Update.size_written m1 (List.length l) G1 S5) as (_ & _ & _ & Z4). rewrite Z4 by assumption. apply G2, Hk.
  - cbn [append_sections] in H. apply rbind_ok in H. destruct H as (m1 & Em & H). apply rbind_ok in H. destruct H as ([out' off] & Ea & H).
    apply Forall_cons_iff in Hs as [(S1 & S2 & S3 & S4 & S5) Hs]. cbn [fst snd] in *. cbn [saved_objects flat_map fst] in Hpl. apply Forall_app in Hpl as [P1 P2].
    assert (G : writable (ODict m1)).
    { destruct prev as [p|]; [|apply Ok_inj in Em; subst m1; auto]. apply (Update.prev_written m0 p m1 S3 (Hprev p eq_refl) Em). }
    assert (Hfit1 : (Z.of_nat (List.length out') < 2 ^ 63)%Z).
    { destruct (Update.append_sections_grow _ _ _ _ H) as (y & ->). rewrite app_length in Hfit. lia. }
    destruct (section_written out l0 m1 out' off (Update.saveable_used (fun _ _ => Throw EGeneral) _ S2) P1 S5 G Ea Hfit1) as (w1 & table & m' & W1 & W2 & W3 & W4 & _ & _ & _ & W5).
    assert (Hoff : (0 <= off < 2 ^ 63)%Z).
    { unfold append_section in Ea. apply rbind_ok in Ea. destruct Ea as (a & _ & Ea). destruct (write_objects _ _ _) as [body l2]. apply rbind_ok in Ea. destruct Ea as (b & _ & Ea). apply Ok_inj in Ea.
      apply pair_equal_spec in Ea as [E1 E2]. rewrite <- E2. rewrite <- E1 in Hfit1. rewrite !app_length in *. lia. }
    cbn [saved_objects flat_map fst]. rewrite app_assoc. apply (IH l m out' (Some off) (j ++ flat_map in_use l0) (w ++ w1) (Some m') file); try assumption.
    + rewrite W4. replace (out ++ text_of w1 ++ [10] ++ table ++ (str "startxref" ++ [10] ++ to_string_Z off ++ [10]) ++ str "%%EOF" ++ [10]) with
        (out ++ [] ++ text_of w1 ++ ([10] ++ table ++ str "startxref" ++ [10] ++ to_string_Z off ++ [10]) ++ (str "%%EOF" ++ [10])) by (rewrite <- !app_assoc; reflexivity).
      apply (made_more v out w x false w1); try assumption; [exact eof_lead|cbn; lia|reflexivity].
    + apply Forall2_app; assumption.
    + intros p X. congruence.
Qed.
(** ** what an incremental save writes *)
Lemma sorted_same : forall (a b : journal), StronglySorted N.lt (map (fun x => fst (fst x)) a) -> StronglySorted N.lt (map (fun x => fst (fst x)) b) -> (forall x, In x a <-> In x b) -> a = b.
Proof.
  induction a as [|x a IH]; intros [|y b] Ha Hb H; [reflexivity|destruct (proj2 (H y) (or_introl eq_refl))|destruct (proj1 (H x) (or_introl eq_refl))|].
  cbn [map] in *. apply StronglySorted_inv in Ha as [Ha1 Ha2]. apply StronglySorted_inv in Hb as [Hb1 Hb2]. rewrite Forall_forall in Ha2, Hb2.
  assert (La : forall z, In z a -> fst (fst x) < fst (fst z)) by (intros z Hz; apply Ha2; apply (in_map (fun x => fst (fst x))), Hz).
  assert (Lb : forall z, In z b -> fst (fst y) < fst (fst z)) by (intros z Hz; apply Hb2; apply (in_map (fun x => fst (fst x))), Hz).
  assert (E : x = y).
  { destruct (proj1 (H x) (or_introl eq_refl)) as [E|E]; [auto|]. destruct (proj2 (H y) (or_introl eq_refl)) as [E2|E2]; [auto|]. specialize (La _ E2). specialize (Lb _ E). lia. }
  subst y. f_equal. apply IH; [exact Ha1|exact Hb1|]. intros z. split; intros Hz.
  - destruct (proj1 (H z) (or_intror Hz)) as [E|E]; [subst z; specialize (La _ Hz); lia|exact E].
  - destruct (proj2 (H z) (or_intror Hz)) as [E|E]; [subst z; specialize (Lb _ Hz); lia|exact E].
Qed.
Lemma in_use_sorted : forall l, StronglySorted N.lt (map (fun p => xnum (fst p)) l) -> StronglySorted N.lt (map (fun x => fst (fst x)) (flat_map in_use l)).
Proof.
  induction l as [|[e o] l IH]; intros H; [constructor|]. cbn [map flat_map] in *. apply StronglySorted_inv in H as [H1 H2]. specialize (IH H1). unfold in_use at 1. cbn [fst snd].
  destruct (xdata e) as [|? []|]; try exact IH. cbn [app map fst]. constructor; [exact IH|]. rewrite Forall_forall in *. intros n Hn. apply in_map_iff in Hn. destruct Hn as (x & <- & Hx).
  apply in_flat_map in Hx. destruct Hx as ([e2 o2] & Hi & Hx). unfold in_use in Hx. cbn [fst snd] in Hx. destruct (xdata e2) as [|? []|]; try destruct Hx as [<-|[]]; try (destruct Hx; fail).
  cbn [fst]. apply H2. apply (in_map (fun p => xnum (fst p)) l (e2, o2)), Hi.
Qed.
Lemma update_written : forall file s r w file', updatable s r -> update_objects (s :: r) w -> write_incremental file (s :: r) = Ok file' ->
  exists t m2 off, flat_map in_use t = w /\ Forall (fun p => entry_saveable (fst p) /\ (used_in_use (fst p) -> storable (snd p))) t /\ N.of_nat (List.length t) < 2 ^ 63 /\
    writable (ODict m2) /\ append_section (file ++ [10]) t m2 = Ok (file', off) /\ forall k, In k document_keys -> sm_find k m2 = sm_find k (f_trailer s).
Proof.
  intros file s r w file' (Hsv & Hone & Ht & Hx & Hoff & Hn) (Hsort & Hin) Hw. unfold write_incremental in Hw. apply rbind_ok in Hw. destruct Hw as ([t m] & Hc & Hw).
  apply rbind_ok in Hw. destruct Hw as ([out off] & Ha & Hw). apply Ok_inj in Hw. subst out.
  unfold create_incremental in Hc. apply rbind_ok in Hc. destruct Hc as ([t0 any] & Hcol & Hc). apply Update.changes_spec in Hcol. destruct Hcol as [Et Eany]. cbn [orb] in Eany.
  apply rbind_ok in Hc. destruct Hc as (m1 & Em & Hc). apply Ok_inj in Hc. apply pair_equal_spec in Hc as [E1 E2]. subst t m1.
  assert (Hlen : N.of_nat (List.length t0) < 2 ^ 63).
  { rewrite Et. assert (G := Update.add_all_length (Update.changes (s :: r)) [list_head]). cbn [List.length] in G.
    assert (G2 : forall c, (List.length (Update.changes c) <= List.length (flat_map f_items c))%nat).
    { clear. unfold Update.changes. induction c as [|s c IH]; [cbn; lia|]. cbn [flat_map]. rewrite !app_length.
      assert (List.length (flat_map Update.change (f_items s)) <= List.length (f_items s))%nat; [|lia]. clear. induction (f_items s) as [|x l IH]; [cbn; lia|].
      cbn [flat_map List.length]. rewrite app_length. assert (List.length (Update.change x) <= 1)%nat; [|lia]. unfold Update.change. destruct (f_dirty x); [|cbn; lia].
      destruct (xdata (f_entry x)) as [|? []|]; cbn; lia. }
    specialize (G2 (s :: r)). change (2 ^ 63) with 9223372036854775808 in *. lia. }
  assert (Hlens : N.of_nat (List.length (s_entries (as_section s))) < 2 ^ 63).
  { cbn [as_section s_entries]. rewrite map_length. cbn [flat_map] in Hn. rewrite app_length in Hn. change (2 ^ 63) with 9223372036854775808 in *. lia. }
  assert (W1 := Update.clone_writable (as_section s) Ht Hlens).
  assert (Hm : writable (ODict m) /\ (forall k, all_bytes k -> k <> str "Prev" -> sm_find k m = sm_find k (clone_trailer (as_section s)))).
  { destruct any.
    - unfold dict_insert in Em. cbn [negb andb] in Em. apply Ok_inj in Em. subst m. destruct (writable_parts _ W1) as (S1 & K1 & _). split.
      + apply writable_insert; [exact W1|apply str_bytes|apply Update.writable_nat; exact Hoff|discriminate].
      + intros k Hk Hne. rewrite SMap.sm_find_insert by (assumption || apply str_bytes). destruct (sm_find k _); [reflexivity|].
        destruct (list_eq_dec N.eq_dec k (str "Prev")); [contradiction|reflexivity].
    - apply Ok_inj in Em. subst m. split; [exact W1|reflexivity]. }
  destruct Hm as (M1 & M2).
  exists t0, (clone_trailer {| s_kind := STable; s_entries := map fst t0; s_hybrid := None; s_trailer := m |}), off.
  assert (Hst : StronglySorted N.lt (map (fun p => xnum (fst p)) t0)) by (rewrite Et; apply Update.add_all_sorted; repeat constructor).
  split.
  { apply sorted_same; [apply in_use_sorted, Hst|exact Hsort|]. intros [[n g] o]. rewrite Hin. split.
    - intros H. apply in_flat_map in H. destruct H as ([e o'] & Hi & H). unfold in_use in H. cbn [fst snd] in H. destruct (xdata e) as [|z []|] eqn:Ed; try destruct H as [H|[]]; try (destruct H; fail).
      assert (o' = o /\ xnum e = n /\ xgen e = g) as (Eo & E3 & E4) by (repeat split; congruence). subst o'. exists e. split; [|auto]. rewrite Et in Hi. apply Update.add_all_in in Hi. destruct Hi as [Hi|[Hi|[]]].
      + unfold Update.changes in Hi. apply in_flat_map in Hi. destruct Hi as (s2 & Hs2 & Hi). apply in_flat_map in Hi. destruct Hi as (x & Hx2 & Hi). exists s2, z. split; [exact Hs2|]. split; [exact Ed|].
        unfold Update.change in Hi. destruct x as [ex ox dx]. cbn [f_dirty f_entry f_object] in Hi. destruct dx; [|destruct Hi].
        destruct (xdata ex) as [|z2 []|] eqn:Ex; try destruct Hi as [Hi|[]]; try (destruct Hi; fail); try (assert (ex = e /\ ox = o) as [-> ->] by (split; congruence); exact Hx2).
        exfalso. assert (Ef := f_equal fst Hi). cbn [fst] in Ef. rewrite <- Ef in Ed. discriminate Ed.
      + exfalso. assert (Ef := f_equal fst Hi). cbn [fst list_head] in Ef. rewrite <- Ef in Ed. discriminate Ed.
    - intros (e & Hch & En & Eg). apply in_flat_map. exists (e, o). split; [rewrite Et; apply Update.changed_listed; assumption|]. destruct Hch as (s2 & z & _ & Ed & _). unfold in_use. cbn [fst snd]. rewrite Ed. left. congruence. }
  split; [apply (Update.saveable_used (fun _ _ => Throw EGeneral)); rewrite Et; apply Update.changes_ok, Hsv|]. split; [exact Hlen|].
  split; [apply Update.clone_writable; [exact M1|cbn [s_entries]; rewrite map_length; exact Hlen]|]. split; [exact Ha|].
  intros k Hk. destruct (document_key k Hk) as (D1 & D2 & D3 & D4). rewrite Update.clone_find by assumption. cbn [s_trailer]. rewrite M2 by assumption. rewrite Update.clone_find by assumption. reflexivity.
Qed.
Lemma history_holds : forall v file j m, history v file j m -> holds v file j m.
Proof.
  intros v file j m H. induction H as [c l m file Hs Hpl Hw Hfit|file j m s r w file' H IH Hu Ho Hpl Hw Hfit].
  - apply (tables_made v c l m (write_header v) None [] [] None file (made_header v) (Forall2_nil _)); try assumption. discriminate.
  - destruct IH as (w0 & m0 & M1 & M2 & M3). destruct (update_written file s r w file' Hu Ho Hw) as (t & m2 & off & E1 & E2 & E3 & E4 & E5 & E6).
    rewrite <- E1 in *. destruct (section_written _ t m2 file' off E2 Hpl E3 E4 E5 Hfit) as (w1 & table & m' & W1 & W2 & W3 & W4 & _ & _ & _ & W5).
    exists (w0 ++ w1), m'. split; [|split].
    + rewrite W4. replace ((file ++ [10]) ++ text_of w1 ++ [10] ++ table ++ (str "startxref" ++ [10] ++ to_string_Z off ++ [10]) ++ str "%%EOF" ++ [10]) with
        (file ++ [10] ++ text_of w1 ++ ([10] ++ table ++ str "startxref" ++ [10] ++ to_string_Z off ++ [10]) ++ (str "%%EOF" ++ [10])) by (rewrite <- !app_assoc; reflexivity).
      apply (made_more v file w0 (Some m0) true w1); try assumption; [exact eof_lead|cbn; lia|reflexivity].
    + apply Forall2_app; assumption.
    + intros k Hk. destruct (document_key k Hk) as (D1 & D2 & D3 & D4). rewrite W3. destruct (Update.size_written m2 (List.length t) E4 E3) as (_ & _ & _ & Z4). rewrite Z4 by assumption. apply E6, Hk.
Qed.

(** ** opening by the search *)
Lemma latest_same : forall n j w, Forall2 same_written j w ->
  match latest n j, latest n w with Some (g, o), Some (g', o') => g = g' /\ same_object o o' | None, None => True | _, _ => False end.
Proof.
  intros n j w H. induction H as [|[[n1 g1] o1] [[n2 g2] o2] j w (E & S) F IH]; [exact I|]. cbn [latest fst snd] in *. apply pair_equal_spec in E as [-> ->].
  destruct (latest n j) as [[g o]|], (latest n w) as [[g' o']|]; try (destruct IH; fail); [exact IH|]. destruct (n2 =? n); auto.
Qed.
Lemma latest_in : forall n j g o, latest n j = Some (g, o) -> In (n, g, o) j.
Proof.
  intros n j g o. induction j as [|[[n1 g1] o1] j IH]; cbn [latest]; [discriminate|]. destruct (latest n j) as [x|]; [intros X; right; auto|].
  destruct (n1 =? n) eqn:E; [|discriminate]. intros X. left. apply N.eqb_eq in E. congruence.
Qed.
Lemma search_opens : forall decode fuel left v text fin evs j m m', (forall m b, decode m b <> NoFuel) -> pieces 0 text evs -> file_end fin ->
  Forall fine (objects_of evs) -> Forall2 same_written j (objects_of evs) -> last_trailer evs = Some m' -> (forall k, In k document_keys -> sm_find k m' = sm_find k m) ->
  read_header (text ++ fin) = Ok v -> last_xref_offset (text ++ fin) = Throw EGeneral ->
  exists st, initialize parser_dictionary decode fuel left (text ++ fin) = Ok (v, BySearch st) /\ shows (text ++ fin) st j /\ keeps_document st m.
Proof.
  intros decode fuel left v text fin evs j m m' Hdec Hp Hf Hfine F Ht Hk Hv Hx.
  destruct (Verif.Props.Rebuild.C55_found_partial decode left text fin evs Hdec Hp Hf) as (st & E & Hh & Hr & Htr). exists st. split; [|split].
  - unfold initialize. rewrite Hv. cbn [rbind]. rewrite Hx. cbn [rbind recoverable]. rewrite E. reflexivity.
  - intros n g. specialize (Hh n). specialize (Hr n g). assert (L := last_object_latest n evs). assert (S := latest_same n j _ F).
    destruct (last_object n evs) as [[[p g1] o1]|] eqn:El; cbn [option_map fst snd] in L; rewrite <- L in S.
    + destruct (latest n j) as [[g2 o2]|]; [|destruct S]. destruct S as [-> S]. destruct (g1 =? g) eqn:Eg; [|exact Hr]. apply N.eqb_eq in Eg. subst g1.
      exists {| xnum := n; xgen := g; xdata := KUsed (Z.of_nat p) true |}, o1. split; [exact Hr|]. split; [apply find_some in Hh; apply Hh|]. split; [exact S|]. intros rl.
      apply (Verif.Props.Rebuild.C55_loads rl text fin evs Hp Hf); [apply last_object_in, El|]. symmetry in L. apply latest_in in L. rewrite Forall_forall in Hfine. apply (Hfine _ L).
    + destruct (latest n j) as [[g2 o2]|]; [destruct S|exact Hr].
  - intros k Hin. rewrite Htr, Ht. apply Hk, Hin.
Qed.
Lemma rev_no_marker : forall c t f, is_white c = false -> c <> 70 -> (do '(t1, r1) <- rev_token_skip (S f) (c :: t);;
  match t1 with RtEofMarker => Ok r1 | _ => Throw EGeneral end) = (Throw EGeneral : res bytes).
Proof.
  intros c t f Hc H70. cbn [rev_token_skip rev_token]. unfold is_white in Hc. repeat (apply orb_false_iff in Hc; destruct Hc as [Hc ?]).
  repeat match goal with H : (c =? _) = false |- _ => rewrite H; clear H end. cbn [orb]. unfold rev_unknown. destruct (is_numeric c).
  - destruct (span is_numeric t) as [a r]. destruct (span is_sign r) as [b r2]. reflexivity.
  - destruct (span (fun x => negb (is_white x)) t) as [w r]. replace (bytes_eqb (c :: w) (str "FOE%%")) with false by (cbn [str bytes_eqb]; cbn; destruct (c =? 70) eqn:E; [lia|reflexivity]).
    destruct (bytes_eqb (c :: w) (str "ferxtrats")); reflexivity.
Qed.
Lemma no_end : forall p c (lf : bool), is_white c = false -> c <> 70 -> last_xref_offset (p ++ c :: (if lf then [10] else [])) = Throw EGeneral.
Proof.
  intros p c lf Hc H70. unfold last_xref_offset. cbn zeta. destruct (window_end p (c :: (if lf then [10] else [])) ltac:(destruct lf; cbn; lia)) as (p' & E). rewrite E.
  rewrite rev_app_distr. generalize (rev p') as t. intros t. unfold read_last_xref_offset.
  assert (G : forall s, (do '(t1, r1) <- rev_token_skip (S (List.length s)) s;; match t1 with RtEofMarker => Ok r1 | _ => Throw EGeneral end) = (Throw EGeneral : res bytes) ->
    (do '(t1, r1) <- rev_token_skip (S (List.length s)) s;; match t1 with
      | RtEofMarker => do '(t2, r2) <- rev_token_skip (S (List.length s)) r1;; match t2 with
          | RtInt v => do '(t3, _) <- rev_token_skip (S (List.length s)) r2;; match t3 with RtStartXref => stoll (rev v) | _ => Throw EGeneral end
          | _ => Throw EGeneral end
      | _ => Throw EGeneral end) = Throw EGeneral).
  { intros s. destruct (rev_token_skip (S (List.length s)) s) as [[[] r]|e| |]; cbn [rbind]; intros X; try exact X; try reflexivity; congruence. }
  apply G. clear G. destruct lf; cbn [rev app List.length]; [|apply rev_no_marker; assumption].
  assert (X : rev_token_skip (S (S (S (List.length t)))) (10 :: c :: t) = rev_token_skip (S (S (List.length t))) (c :: t)).
  { cbn [rev_token_skip]. cbn [rev_token N.eqb Pos.eqb]. destruct (c =? 13) eqn:E13; [replace c with 13 in Hc by lia; discriminate Hc|]. 
    destruct c as [|q]; [reflexivity|]. repeat (destruct q as [q|q|]; try reflexivity; try discriminate E13). }
  rewrite X. apply rev_no_marker; assumption.
Qed.

(** ** the points of an incremental save *)
Lemma Forall2_cons_both : forall A B (R : A -> B -> Prop) a b l m, Forall2 R (a :: l) (b :: m) -> R a b /\ Forall2 R l m.
Proof. intros A B R a b l m H. inversion H; auto. Qed.
Lemma after_objects : forall v file w x done, made v file w x -> Forall fine done -> exists text lead evs, file ++ [10] ++ text_of done = text ++ lead ++ [10] /\
  pieces 0 text evs /\ lead_in lead /\ last lead 0 <> 13 /\ (forall s, token_ends (lead ++ [10] ++ s)) /\ objects_of evs = w ++ done /\ last_trailer evs = x.
Proof.
  intros v file w x done (text & fin & evs & E & Hp & Hl & H13 & Hh & Eo & Hj & Et & y & Ey) Hd. destruct done as [|a done].
  - exists text, fin, evs. cbn [text_of flat_map]. rewrite !app_nil_r, E, <- app_assoc. repeat (split; [assumption || reflexivity|]). split; [intros s; apply percent_end, hd_app, Hh|]. auto.
  - destruct (objects_pieces0 (a :: done) (0 + List.length text + List.length fin + 1) [] ltac:(discriminate) li_nil Hd) as (z & l & Ez & P1 & P2 & P3).
    exists (text ++ fin ++ [10] ++ z ++ str "endobj"), [], (evs ++ l). split; [rewrite Ez, E, <- !app_assoc; reflexivity|]. split.
    + apply pieces_app; [exact Hp| |apply percent_end, hd_app, Hh]. apply pieces_lf; assumption.
    + split; [constructor|]. split; [cbn; lia|]. split; [intros s; left; cbn; tauto|]. rewrite objects_app, last_trailer_app, Eo, P2, P3. split; [reflexivity|exact Et].
Qed.
(** a number without its last digit *)
Lemma digits_fuel : forall f g n acc, n < 2 ^ N.of_nat f -> (f <= g)%nat -> digits_aux 10 (S f) n acc = digits_aux 10 (S g) n acc.
Proof.
  induction f as [|f IH]; intros g n acc Hn Hg.
  - replace n with 0 by (cbn in Hn; lia). destruct g; reflexivity.
  - destruct g as [|g]; [lia|]. cbn [digits_aux]. destruct (n / 10 =? 0) eqn:E; [reflexivity|]. apply (IH g); [|lia].
    replace (N.of_nat (S f)) with (N.succ (N.of_nat f)) in Hn by lia. rewrite N.pow_succ_r' in Hn. apply N.div_lt_upper_bound; lia.
Qed.
Lemma digits_acc : forall f n acc, digits_aux 10 f n acc = digits_aux 10 f n [] ++ acc.
Proof.
  induction f as [|f IH]; intros n acc; [reflexivity|]. cbn [digits_aux]. destruct (n / 10 =? 0); [reflexivity|]. rewrite IH, (IH _ [_]), <- app_assoc. reflexivity.
Qed.
Lemma size_fits : forall n, n < 2 ^ N.of_nat (N.size_nat n).
Proof.
  intros [|p]; [cbn; lia|]. replace (N.of_nat (N.size_nat (N.pos p))) with (N.size (N.pos p)); [apply N.size_gt|]. cbn. induction p; cbn; rewrite ?IHp; try reflexivity; lia.
Qed.
Lemma last_digit : forall n, 10 <= n -> to_string_N n = to_string_N (n / 10) ++ [digit_char (n mod 10)].
Proof.
  intros n Hn. unfold to_string_N, digits. cbn [digits_aux]. destruct (n / 10 =? 0) eqn:E; [apply N.eqb_eq, N.div_small_iff in E; lia|]. rewrite digits_acc. f_equal.
  assert (X : N.size_nat n <> O) by (destruct n as [|[]]; [lia| | |]; discriminate). destruct (N.size_nat n) as [|k] eqn:Ek; [congruence|].
  assert (Hk : n / 10 < 2 ^ N.of_nat k).
  { assert (B := size_fits n). rewrite Ek in B. replace (N.of_nat (S k)) with (N.succ (N.of_nat k)) in B by lia. rewrite N.pow_succ_r' in B. apply N.div_lt_upper_bound; lia. }
  change (digits_aux 10 (S k) (n / 10) [] = digits_aux 10 (S (N.size_nat (n / 10))) (n / 10) []).
  destruct (Nat.le_ge_cases k (N.size_nat (n / 10))) as [H|H]; [apply digits_fuel; assumption|symmetry; apply digits_fuel; [apply size_fits|exact H]].
Qed.
Definition heading (n g : N) : bytes := to_string_N n ++ [32] ++ to_string_N g ++ [32] ++ str "obj".
Section Torn.
Variable decode : list (bytes * obj) -> bytes -> res bytes.
Hypothesis decode_ends : forall m b, decode m b <> NoFuel.
Notation search := (Verif.Proof.Rebuild.search decode).
Lemma heading_step : forall total n g t st, n < 2 ^ 64 -> g <= 65535 -> token_ends t ->
  search total (heading n g ++ t) st =
  do '(o, r4) <- parse_direct parser_dictionary opening_length t;;
  do st2 <- note_stream decode n g o {| f_held := hold {| xnum := n; xgen := g; xdata := KUsed (Z.of_nat (total - List.length (heading n g ++ t))) true |} o (f_held st);
              Rebuild.f_trailer := Rebuild.f_trailer st; f_streams := f_streams st; f_left := f_left st |};;
  do '(_, r5) <- read_token_skip parser_dictionary r4;; search total r5 st2.
Proof.
  intros total n g t st Hn Hg Ht. rewrite (search_eq decode decode_ends). generalize (total - List.length (heading n g ++ t))%nat as pos. intros pos. unfold search_round, heading.
  destruct (digits_ok n) as (N1 & N2). destruct (digits_ok g) as (G1 & G2). rewrite <- !app_assoc.
  assert (B : Forall blank [32]) by exact blank32.
  rewrite (nat_token decode decode_ends (to_string_N n)) by (try assumption; left; cbn; tauto). cbn [rbind fst snd].
  rewrite (blanks_token [32]) by exact B. rewrite (nat_token decode decode_ends (to_string_N g)) by (try assumption; left; cbn; tauto). cbn [rbind fst snd].
  rewrite (blanks_token [32]) by exact B. rewrite (word_token decode decode_ends (str "obj") _ word_obj Ht). cbn [rbind].
  change (fst (parser_dictionary (str "obj"), str "obj")) with TyObjBegin. cbv iota.
  rewrite (stoull_digits decode decode_ends) by (try assumption; rewrite N2; assumption). cbn [rbind]. rewrite (stoull_digits decode decode_ends) by (try assumption; rewrite G2; change (2 ^ 64) with 18446744073709551616; lia). cbn [rbind].
  unfold to_u16 at 1. rewrite N2, G2. replace (Z.of_N g <? 0)%Z with false by lia. replace (Z.of_N g <=? 65535)%Z with true by lia. cbn [rbind]. rewrite N2Z.id.
  destruct (parse_direct parser_dictionary opening_length t) as [[o r4]|e| |]; try reflexivity. cbn [rbind]. destruct (note_stream decode n g o _) as [st2|e| |]; try reflexivity. cbn [rbind].
  destruct (read_token_skip parser_dictionary r4) as [[tk r5]|e| |]; reflexivity.
Qed.
Lemma torn_search : forall v file w x done n g t left, made v file w x -> Forall fine done -> n < 2 ^ 64 -> g <= 65535 -> token_ends t ->
  let cut := file ++ [10] ++ text_of done ++ heading n g ++ t in
  exists st pos, f_streams st = [] /\ find_all_objects parser_dictionary decode left cut =
  do '(o, r4) <- parse_direct parser_dictionary opening_length t;;
  do st2 <- note_stream decode n g o {| f_held := hold {| xnum := n; xgen := g; xdata := KUsed pos true |} o (f_held st);
              Rebuild.f_trailer := Rebuild.f_trailer st; f_streams := f_streams st; f_left := f_left st |};;
  do '(_, r5) <- read_token_skip parser_dictionary r4;; search (List.length cut) r5 st2.
Proof.
  intros v file w x done n g t left Hm Hd Hn Hg Ht cut. destruct (after_objects v file w x done Hm Hd) as (text & lead & evs & E & Hp & Hl & H13 & Te & Eo & Et).
  assert (Ec : cut = text ++ lead ++ [10] ++ heading n g ++ t).
  { unfold cut. rewrite !app_assoc. f_equal. f_equal. rewrite <- !app_assoc. exact E. }
  set (st0 := {| f_held := []; Rebuild.f_trailer := []; f_streams := []; f_left := left |}). exists (notes evs st0). eexists.
  split; [destruct (notes_facts evs st0) as (N1 & _); rewrite N1; reflexivity|].
  change (find_all_objects parser_dictionary decode left cut) with (search (List.length cut) cut st0). rewrite Ec at 2.
  rewrite (pieces_steps decode decode_ends 0 text evs Hp) by (apply Te || (rewrite Ec; reflexivity)).
  rewrite (piece_step decode decode_ends lead [10] None false Hl (ct_line_end _ lf_end)) by (tauto || discriminate). apply heading_step; assumption.
Qed.
End Torn.

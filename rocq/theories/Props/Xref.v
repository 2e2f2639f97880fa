(** C16, C17, C18, C19: cross-reference tables and streams. *)
From Coq Require Import List NArith ZArith Bool Lia String Sorted FinFun.
From Verif.Model Require Import Base Char Numbers Object Token Parser Arith Xref StartXref.
From Verif.Spec Require Import Strings Grammar Xref.
From Verif.Proof Require Import Tac Numbers Token Parser Writer Arith Xref XrefStream.
Import ListNotations.
Local Open Scope N_scope.

(** ** lemmas about what is read back *)
Lemma find_map_same : forall (f : xentry -> xentry) n t, (forall e, xnum (f e) = xnum e) ->
  find (fun e => xnum e =? n) (map f t) = option_map f (find (fun e => xnum e =? n) t).
Proof.
  intros f n t H. induction t as [|e t IH]; [reflexivity|]. cbn [map find]. rewrite H, IH. destruct (xnum e =? n); reflexivity.
Qed.
Lemma forget_record : forall e, record_of (forget e) = forget_next (record_of e).
Proof. intros [n g []]; reflexivity. Qed.
Lemma entry_for_forget : forall n t, entry_for n (map forget t) = option_map forget_next (entry_for n t).
Proof.
  intros n t. unfold entry_for. rewrite find_map_same by reflexivity. destruct (find _ t) as [e|]; [|reflexivity].
  cbn [option_map]. rewrite forget_record. reflexivity.
Qed.
Lemma entry_for_reread : forall n t, entry_for n (map reread t) = entry_for n t.
Proof.
  intros n t. unfold entry_for. rewrite find_map_same by apply reread_num. destruct (find _ t) as [e|]; [|reflexivity].
  cbn [option_map]. rewrite reread_record. reflexivity.
Qed.
Lemma no_next_found : forall es n, Forall no_next_free es -> option_map forget_next (last_added n es) = last_added n es.
Proof.
  intros es n H. unfold last_added. destruct (find _ (rev es)) as [e|] eqn:E; [|reflexivity]. cbn [option_map]. f_equal.
  apply find_some in E. destruct E as [E _]. apply in_rev in E. rewrite Forall_forall in H. specialize (H e E).
  unfold record_of, no_next_free in *. destruct (xdata e); cbn [forget_next]; congruence.
Qed.

(** ** C16 *)
(** Whatever entries were added (any gaps, any order, repeated numbers), the table is read back with the last added entry of every
    number, the trailer dictionary and the input just behind it.  Only the link from a free entry to the next free one is lost. *)
Theorem C16_table_roundtrip_exact : forall rl es m rest, Forall entry_in_range es -> Forall not_compressed es ->
  writable (ODict m) -> object_end (10 :: rest) ->
  exists text t, write_xref_table (section_of es) (ODict m) = Ok text /\
    read_xref_table parser_dictionary rl (text ++ rest) = Ok (t, ODict m, 10 :: rest) /\
    forall n, entry_for n t = option_map forget_next (last_added n es).
Proof.
  intros rl es m rest Hr Hc Hw He.
  destruct (table_roundtrip rl (section_of es) m rest (section_sorted es) (section_Forall _ _ Hr) (section_Forall _ _ Hc) Hw He) as (text & E1 & E2).
  exists text, (map forget (section_of es)). split; [exact E1|]. split; [exact E2|]. intros n.
  rewrite entry_for_forget, entry_for_section. reflexivity.
Qed.
(** the full claim, for tables whose free entries have no successor *)
Theorem C16_table_roundtrip_partial : forall rl es m rest, Forall entry_in_range es -> Forall not_compressed es ->
  Forall no_next_free es -> writable (ODict m) -> object_end (10 :: rest) ->
  exists text t, write_xref_table (section_of es) (ODict m) = Ok text /\
    read_xref_table parser_dictionary rl (text ++ rest) = Ok (t, ODict m, 10 :: rest) /\
    forall n, entry_for n t = last_added n es.
Proof.
  intros rl es m rest Hr Hc Hf Hw He. destruct (C16_table_roundtrip_exact rl es m rest Hr Hc Hw He) as (text & t & E1 & E2 & E3).
  exists text, t. split; [exact E1|]. split; [exact E2|]. intros n. rewrite E3. apply no_next_found, Hf.
Qed.
(** every free entry with a successor is read back without it *)
Theorem C16_next_free_refuted : forall rl es m rest num gen next, Forall entry_in_range es -> Forall not_compressed es ->
  writable (ODict m) -> object_end (10 :: rest) -> last_added num es = Some (RFree num gen next) -> next <> 0 ->
  exists text t, write_xref_table (section_of es) (ODict m) = Ok text /\
    read_xref_table parser_dictionary rl (text ++ rest) = Ok (t, ODict m, 10 :: rest) /\
    entry_for num t = Some (RFree num gen 0) /\ entry_for num t <> last_added num es.
Proof.
  intros rl es m rest num gen next Hr Hc Hw He Hl Hn. destruct (C16_table_roundtrip_exact rl es m rest Hr Hc Hw He) as (text & t & E1 & E2 & E3).
  exists text, t. split; [exact E1|]. split; [exact E2|]. rewrite E3, Hl. split; [reflexivity|]. cbn. intros C. inversion C. congruence.
Qed.
(** a table with an entry whose object was released is written without that row and cannot be read *)
Theorem C16_released_entry_refuted : exists t m text, write_xref_table t (ODict m) = Ok text /\
  forall rl, exists e, read_xref_table parser_dictionary rl text = Throw e.
Proof.
  exists [{| xnum := 1; xgen := 0; xdata := KUsed 15 true |}; {| xnum := 2; xgen := 0; xdata := KUsed 30 false |}], [].
  eexists. split; [vm_compute; reflexivity|]. intros rl. eexists. vm_compute. reflexivity.
Qed.
(** 7.5.4: every row is exactly 20 bytes, for values the format has room for *)
Lemma pad_length : forall w n, (List.length (digits 10 n) <= w)%nat -> List.length (pad_zero w (to_string_N n)) = w.
Proof. intros w n H. unfold pad_zero. rewrite app_length, repeat_length. unfold to_string_N. lia. Qed.
Theorem C16_rows_have_20_bytes : forall e, entry_in_range e -> not_compressed e ->
  match xdata e with KFree next => next < 10000000000 | KUsed offset _ => (offset < 10000000000)%Z | _ => True end ->
  List.length (table_row e) = 20%nat.
Proof.
  intros [num gen data] (H1 & H2 & H3) Hc Hv. unfold table_row. cbn [xdata xgen xnum] in *.
  assert (Hg : List.length (fmt_0 5 (Z.of_N gen)) = 5%nat).
  { rewrite fmt_0_ok. apply pad_length. assert (H := digits_len gen 5 ltac:(lia)). change (10 ^ 5) with 100000 in H. specialize (H ltac:(lia)). lia. }
  assert (Hw : forall v, v < 10000000000 -> List.length (fmt_0 10 (Z.of_N v)) = 10%nat).
  { intros v Hv'. rewrite fmt_0_ok. apply pad_length. assert (H := digits_len v 10 ltac:(lia)). change (10 ^ 10) with 10000000000 in H. specialize (H Hv'). lia. }
  destruct data as [next|offset []|]; [| | |destruct Hc].
  - rewrite !app_length, Hg, (Hw next Hv). reflexivity.
  - rewrite <- (Z2N.id offset) at 1 by lia. rewrite !app_length, Hg, Hw by lia. reflexivity.
  - destruct H3 as [_ H3]. discriminate.
Qed.
Definition C16_entries : list xentry :=
  [ {| xnum := 7; xgen := 2; xdata := KUsed 1234 true |}; {| xnum := 0; xgen := 65535; xdata := KFree 0 |};
    {| xnum := 3; xgen := 0; xdata := KUsed 17 true |}; {| xnum := 4; xgen := 1; xdata := KFree 0 |};
    {| xnum := 3; xgen := 0; xdata := KUsed 99 true |} ].
Definition C16_trailer : obj := ODict [(str "Root", ORef 3 0); (str "Size", OInt 8)].
Example C16_case : Forall entry_in_range C16_entries /\ Forall not_compressed C16_entries /\ Forall no_next_free C16_entries /\
  writable C16_trailer /\ object_end (10 :: write_xref_offset 500).
Proof.
  split; [|split; [|split; [|split]]].
  - repeat constructor; cbn; lia.
  - repeat constructor.
  - repeat constructor; cbn; lia.
  - unfold C16_trailer. apply w_dict.
    + repeat (constructor; cbn; try (apply kl_less; cbn; lia)).
    + repeat constructor; cbn; try discriminate; unfold is_byte; lia.
    + cbn. repeat (constructor; cbn; unfold is_byte; try lia).
  - apply (oe_word [10] (str "startxref") ([10] ++ to_string_Z 500 ++ [10] ++ str "%%EOF" ++ [10]));
      [apply gap_white; [cbn; tauto|constructor]|discriminate|cbn; tauto|left; cbn; tauto].
Qed.
Example C16_case_text : write_xref_table (section_of C16_entries) C16_trailer =
  Ok (flat_map (fun l => str l ++ [10]) ["xref"; "0 1"; "0000000000 65535 f "; "3 2"; "0000000099 00000 n "; "0000000000 00001 f "; "7 1"; "0000001234 00002 n "; "trailer"; "<</Root 3 0 R /Size 8>>"]%string).
Proof. vm_compute. reflexivity. Qed.

(** ** C17 *)
Lemma xadd_length : forall e t, (List.length (xadd e t) <= S (List.length t))%nat.
Proof. induction t as [|x t IH]; [cbn; lia|]. cbn [xadd]. destruct (_ <? _); [cbn; lia|]. destruct (_ =? _); cbn [List.length]; lia. Qed.
Lemma section_length : forall es, (List.length (section_of es) <= List.length es)%nat.
Proof.
  intros es. unfold section_of. enough (H : forall t, (List.length (fold_left (fun t e => xadd e t) es t) <= List.length es + List.length t)%nat).
  { specialize (H []). cbn [List.length] in H. lia. }
  induction es as [|e es IH]; intros t; cbn [fold_left List.length]; [lia|]. specialize (IH (xadd e t)). assert (H := xadd_length e t). lia.
Qed.
Lemma find_none_nil : forall (t : list xentry), (forall n, find (fun e => xnum e =? n) t = None) -> t = [].
Proof. intros [|e t] H; [reflexivity|]. specialize (H (xnum e)). cbn [find] in H. rewrite N.eqb_refl in H. discriminate. Qed.
Lemma first_zero : forall es, es = [] \/ last_added 0 es <> None -> match section_of es with [] => True | e :: _ => xnum e = 0 end.
Proof.
  intros es [->|H]; [exact I|]. rewrite <- entry_for_section in H. unfold entry_for in H.
  assert (Hs := section_sorted es). destruct (section_of es) as [|e t]; [exact I|]. cbn [find] in H.
  destruct (xnum e =? 0) eqn:E; [apply N.eqb_eq in E; exact E|].
  destruct (find _ t) as [x|] eqn:F; [|cbn in H; congruence]. apply find_some in F. destruct F as [F1 F2].
  inversion Hs as [|? ? _ Hall]; subst. rewrite Forall_forall in Hall. specialize (Hall x F1). unfold xlt in Hall. lia.
Qed.
(** The writer chooses the widths, computes /Index and the data; decoding them gives the last added entry of every number.
    Sections whose smallest number is 0. *)
Theorem C17_stream_roundtrip_partial : forall es, Forall entry_in_range es -> (Z.of_nat (List.length es) <= int32_max)%Z ->
  es = [] \/ last_added 0 es <> None ->
  exists w w1 w2 w3 index data t, recalculate_widths (section_of es) = Ok w /\
    recalculate_content w (section_of es) = Ok ((w1, w2, w3), index, data) /\
    (forall size, parse_xref_stream [w1; w2; w3] (Some (map Z.of_N index)) size data = Ok t) /\
    forall n, entry_for n t = last_added n es.
Proof.
  intros es Hr Hlen H0. assert (Hr' := section_Forall _ _ Hr). assert (HL := section_length es).
  destruct (widths_ok _ Hr') as (a & b & c & E & W1 & W2 & W3).
  destruct (content_roundtrip a b c (section_of es) (section_sorted es) Hr' (first_zero es H0) ltac:(lia) W1 W2 W3) as (b' & c' & index & data & E1 & E2).
  exists (a, b, c), a, b', c', index, data, (map reread (section_of es)). repeat (split; [assumption|]). intros n.
  rewrite entry_for_reread. apply entry_for_section.
Qed.
(** the same for a stream that already has widths (a hybrid file): they are raised when needed *)
Theorem C17_existing_widths_partial : forall es w1 w2 w3, Forall entry_in_range es -> (Z.of_nat (List.length es) <= int32_max)%Z ->
  es = [] \/ last_added 0 es <> None -> (1 <= w1 <= 8)%Z -> (0 <= w2 <= 8)%Z -> (0 <= w3 <= 8)%Z ->
  exists w2' w3' index data t, recalculate_content (w1, w2, w3) (section_of es) = Ok ((w1, w2', w3'), index, data) /\
    (forall size, parse_xref_stream [w1; w2'; w3'] (Some (map Z.of_N index)) size data = Ok t) /\
    forall n, entry_for n t = last_added n es.
Proof.
  intros es w1 w2 w3 Hr Hlen H0 H1 H2 H3. assert (Hr' := section_Forall _ _ Hr). assert (HL := section_length es).
  destruct (content_roundtrip w1 w2 w3 (section_of es) (section_sorted es) Hr' (first_zero es H0) ltac:(lia) (fun _ => H1) H2 H3) as (b' & c' & index & data & E1 & E2).
  exists b', c', index, data, (map reread (section_of es)). repeat (split; [assumption|]). intros n.
  rewrite entry_for_reread. apply entry_for_section.
Qed.
(** A section without number 0 (every incremental update): whatever is read back, it has an entry for number 0. *)
Lemma index_head : forall w l idx size prev index data, stream_rows w l idx size prev = Ok (index, data) ->
  exists sz more, index = idx :: sz :: more /\ (l <> [] \/ 1 <= size -> 1 <= sz).
Proof.
  intros w. induction l as [|e l IH]; intros idx size prev index data H; cbn [stream_rows] in H.
  - inversion H; subst. exists size, []. split; [reflexivity|]. intros [C|C]; [congruence|exact C].
  - apply rbind_ok in H. destruct H as ([[closed idx'] size'] & H1 & H).
    apply rbind_ok in H. destruct H as (row & H2 & H). apply rbind_ok in H. destruct H as ([index' data'] & H3 & H). inversion H; subst. clear H.
    destruct (IH _ _ _ _ _ H3) as (sz & more & -> & Hsz).
    destruct (size =? 0) eqn:E0.
    + inversion H1; subst. exists sz, more. split; [reflexivity|]. intros _. apply Hsz. right. lia.
    + apply rbind_ok in H1. destruct H1 as (next & _ & H1). destruct (xnum e =? next); inversion H1; subst.
      * exists sz, more. split; [reflexivity|]. intros _. apply Hsz. right. lia.
      * exists size. eexists. split; [reflexivity|]. intros _. lia.
Qed.
Lemma xadd_has : forall n e t, (exists x, In x t /\ xnum x = n) -> exists x, In x (xadd e t) /\ xnum x = n.
Proof.
  intros n e t. induction t as [|y t IH]; intros (x & Hx & E); [destruct Hx|]. cbn [xadd]. destruct (_ <? _); [exists x; split; [right; exact Hx|exact E]|].
  destruct (xnum e =? xnum y) eqn:Ey.
  - destruct Hx as [->|Hx]; [exists e; split; [left; reflexivity|lia]|exists x; split; [right; exact Hx|exact E]].
  - destruct Hx as [->|Hx]; [exists x; split; [left; reflexivity|exact E]|]. destruct IH as (z & Hz & Ez); [eauto|]. exists z. split; [right; exact Hz|exact Ez].
Qed.
Lemma xadd_new : forall e t, exists x, In x (xadd e t) /\ xnum x = xnum e.
Proof.
  induction t as [|y t IH]; cbn [xadd]; [exists e; split; [left; reflexivity|reflexivity]|].
  destruct (_ <? _); [exists e; split; [left; reflexivity|reflexivity]|]. destruct (_ =? _); [exists e; split; [left; reflexivity|reflexivity]|].
  destruct IH as (x & Hx & E). exists x. split; [right; exact Hx|exact E].
Qed.
Lemma rows_keep : forall n w first k idx s t t' r, read_stream_rows w first k idx s t = Ok (t', r) ->
  (exists x, In x t /\ xnum x = n) -> exists x, In x t' /\ xnum x = n.
Proof.
  intros n w first. induction k as [|k IH]; intros idx s t t' r H Hx; cbn [read_stream_rows] in H; [inversion H; subst; exact Hx|].
  apply rbind_ok in H. destruct H as ([e r1] & _ & H). destruct (_ <=? _)%Z; [discriminate|]. eapply IH; [exact H|]. apply xadd_has, Hx.
Qed.
Lemma index_keep : forall n w k index s t t', (List.length index <= k)%nat -> read_stream_index w index s t = Ok t' ->
  (exists x, In x t /\ xnum x = n) -> exists x, In x t' /\ xnum x = n.
Proof.
  intros n w. induction k as [|k IH]; intros index s t t' Hk H Hx; destruct index as [|a [|b more]]; cbn [read_stream_index List.length] in *;
    try lia; try discriminate; try (inversion H; subst; exact Hx).
  apply rbind_ok in H. destruct H as ([t1 r] & H1 & H). eapply IH; [|exact H|]; [lia|]. eapply rows_keep; [exact H1|exact Hx].
Qed.
Theorem C17_first_number_refuted : forall es w w1 w2 w3 index data size t, es <> [] -> last_added 0 es = None ->
  recalculate_content w (section_of es) = Ok ((w1, w2, w3), index, data) ->
  parse_xref_stream [w1; w2; w3] (Some (map Z.of_N index)) size data = Ok t ->
  entry_for 0 t <> last_added 0 es.
Proof.
  intros es [[a b] c] w1 w2 w3 index data size t Hne H0 H1 H2. rewrite H0. unfold recalculate_content in H1.
  apply rbind_ok in H1. destruct H1 as ([m2 m3] & _ & H1). apply rbind_ok in H1. destruct H1 as (b' & _ & H1).
  apply rbind_ok in H1. destruct H1 as (c' & _ & H1). apply rbind_ok in H1. destruct H1 as ([ix dt] & Hrows & H1). inversion H1; subst. clear H1.
  destruct (index_head _ _ _ _ _ _ _ Hrows) as (sz & more & -> & Hsz).
  assert (Hs : section_of es <> []).
  { intros C. destruct (rev es) as [|y l] eqn:Er.
    - apply Hne. apply (f_equal (@rev xentry)) in Er. rewrite rev_involutive in Er. exact Er.
    - assert (Hf := entry_for_section es (xnum y)). rewrite C in Hf. unfold entry_for, last_added in Hf. rewrite Er in Hf.
      cbn [find option_map] in Hf. rewrite N.eqb_refl in Hf. discriminate. }
  specialize (Hsz (or_introl Hs)). cbn [map parse_xref_stream read_stream_index] in H2.
  apply rbind_ok in H2. destruct H2 as ([t1 r] & H2 & H3).
  assert (Hin : exists x, In x t1 /\ xnum x = 0).
  { replace (Z.to_nat (Z.of_N sz)) with (S (N.to_nat (sz - 1))) in H2 by lia. cbn [read_stream_rows] in H2.
    apply rbind_ok in H2. destruct H2 as ([e r1] & He & H2). change (int32_max <=? 0)%Z with false in H2. cbv iota in H2.
    eapply rows_keep; [exact H2|]. assert (En : xnum e = 0).
    { unfold read_stream_entry in He. apply rbind_ok in He. destruct He as ([f1 q1] & _ & He). apply rbind_ok in He. destruct He as ([f2 q2] & _ & He).
      apply rbind_ok in He. destruct He as ([f3 q3] & _ & He). change (add_u64_int (Z.to_N (wrap uint64_t (Z.of_N 0))) 0) with (@Ok N 0) in He.
      cbn [rbind] in He. destruct (f1 =? 0)%Z; [|destruct (f1 =? 1)%Z; [|destruct (f1 =? 2)%Z; [|discriminate]]];
        apply rbind_ok in He; destruct He as (g & _ & He); inversion He; reflexivity. }
    exists e. split; [left; reflexivity|exact En]. }
  destruct (index_keep 0 _ _ _ _ _ _ (le_n _) H3 Hin) as (x & Hx & Ex). unfold entry_for. intros C.
  destruct (find (fun e => xnum e =? 0) t) as [y|] eqn:F; [discriminate|]. apply (find_none _ _ F x) in Hx. lia.
Qed.
(** a field of 2^63 or more makes the writer shift by 64 bits *)
Theorem C17_large_value_refuted : exists es w, xnum (hd {| xnum := 0; xgen := 0; xdata := KFree 0 |} es) = 0 /\
  recalculate_widths (section_of es) = Ok w /\ recalculate_content w (section_of es) = Undef.
Proof. exists [{| xnum := 0; xgen := 0; xdata := KFree (2 ^ 63) |}]. eexists. repeat split; vm_compute; reflexivity. Qed.
(** A value that does not fit the width of its field is refused, it is not cut. *)
Theorem C17_too_wide_refused : forall v width, (0 <= width < 8)%Z -> 256 ^ Z.to_N width <= v -> write_value v width = Throw EGeneral.
Proof.
  intros v width Hw Hv. unfold write_value. rewrite (proj2 (Z.ltb_ge _ _)) by lia. rewrite (proj2 (Z.ltb_lt _ _)) by lia. cbn [andb].
  rewrite (proj2 (N.eqb_neq _ _)); [reflexivity|]. intros E. apply N.div_small_iff in E; [lia|]. apply N.pow_nonzero. discriminate.
Qed.
Definition C17_entries : list xentry :=
  [ {| xnum := 7; xgen := 2; xdata := KUsed 70000 true |}; {| xnum := 0; xgen := 65535; xdata := KFree 4 |};
    {| xnum := 3; xgen := 0; xdata := KComp 7 1 |}; {| xnum := 4; xgen := 1; xdata := KFree 0 |}; {| xnum := 3; xgen := 0; xdata := KComp 7 300 |} ].
Example C17_case : Forall entry_in_range C17_entries /\ (Z.of_nat (List.length C17_entries) <= int32_max)%Z /\ last_added 0 C17_entries <> None /\
  last_added 3 C17_entries = Some (RStream 3 7 300).
Proof. split; [repeat constructor; cbn; lia|]. split; [vm_compute; discriminate|]. split; [vm_compute; discriminate|reflexivity]. Qed.
Example C17_case_first : exists w index data t,
  recalculate_content (1, 1, 1)%Z (section_of [{| xnum := 5; xgen := 0; xdata := KUsed 9 true |}]) = Ok (w, index, data) /\
  parse_xref_stream [1; 1; 1]%Z (Some (map Z.of_N index)) 6 data = Ok t /\ entry_for 5 t = None.
Proof. do 4 eexists. repeat split; vm_compute; reflexivity. Qed.

(** ** C18 *)
Lemma field_length : forall n acc s v r, read_field n acc s = Ok (v, r) -> List.length s = (n + List.length r)%nat.
Proof.
  induction n as [|n IH]; intros acc s v r H; cbn [read_field] in H; [inversion H; reflexivity|]. destruct s; [discriminate|].
  apply IH in H. cbn [List.length]. lia.
Qed.
Lemma field_defined : forall n acc s, (n <= List.length s)%nat -> exists v, read_field n acc s = Ok (v, skipn n s).
Proof.
  induction n as [|n IH]; intros acc s H; cbn [read_field]; [eexists; reflexivity|]. destruct s as [|b s]; [cbn in H; lia|].
  cbn [List.length] in H. apply IH. lia.
Qed.
Lemma entry_length : forall w1 w2 w3 first idx s e r, read_stream_entry (w1, w2, w3) first idx s = Ok (e, r) ->
  Z.of_nat (List.length s) = (bytes_per_entry (w1, w2, w3) + Z.of_nat (List.length r))%Z.
Proof.
  intros w1 w2 w3 first idx s e r H. unfold read_stream_entry in H. apply rbind_ok in H. destruct H as ([f1 q1] & H1 & H).
  apply rbind_ok in H. destruct H as ([f2 q2] & H2 & H). apply rbind_ok in H. destruct H as ([f3 q3] & H3 & H).
  apply rbind_ok in H. destruct H as (num & _ & H).
  assert (Er : r = q3). { destruct (f1 =? 0)%Z; [|destruct (f1 =? 1)%Z; [|destruct (f1 =? 2)%Z; [|discriminate]]]; apply rbind_ok in H; destruct H as (g & _ & H); inversion H; reflexivity. }
  subst q3. apply field_length in H1, H2, H3. unfold bytes_per_entry. lia.
Qed.
Lemma rows_length : forall w1 w2 w3 first k idx s t t' r, read_stream_rows (w1, w2, w3) first k idx s t = Ok (t', r) ->
  Z.of_nat (List.length s) = (Z.of_nat k * bytes_per_entry (w1, w2, w3) + Z.of_nat (List.length r))%Z.
Proof.
  intros w1 w2 w3 first. induction k as [|k IH]; intros idx s t t' r H; cbn [read_stream_rows] in H; [inversion H; lia|].
  apply rbind_ok in H. destruct H as ([e q] & H1 & H). destruct (_ <=? _)%Z; [discriminate|]. apply IH in H. apply entry_length in H1. lia.
Qed.
(** data too short for what /W and /Index announce is never accepted *)
Theorem C18_short_data_never_accepted : forall w1 w2 w3 index size data t,
  parse_xref_stream [w1; w2; w3] index size data = Ok t ->
  (bytes_per_entry (w1, w2, w3) * entries_announced (match index with Some l => l | None => [0%Z; size] end) <= Z.of_nat (List.length data))%Z.
Proof.
  intros w1 w2 w3 index size data t H. cbn [parse_xref_stream] in H. revert H. generalize (match index with Some l => l | None => [0%Z; size] end).
  intros l. generalize (@nil xentry). revert data. generalize (le_n (List.length l)). generalize (List.length l) at 2 as k. intros k. revert l.
  induction k as [|k IH]; intros l Hk data acc H; destruct l as [|a [|b more]]; cbn [read_stream_index entries_announced List.length] in *; try lia; try discriminate.
  apply rbind_ok in H. destruct H as ([t1 r] & H1 & H). apply IH in H; [|lia]. apply rows_length in H1. nia.
Qed.
(** The full claim asks for an error instead.  Every announced entry that has no data at all is read from beyond the end. *)
Theorem C18_out_of_bounds_refuted : forall w1 w2 w3 first size more sz, (1 <= size)%Z -> (1 <= bytes_per_entry (w1, w2, w3))%Z ->
  parse_xref_stream [w1; w2; w3] (Some (first :: size :: more)) sz [] = Undef.
Proof.
  intros w1 w2 w3 first size more sz Hs Hb. cbn [parse_xref_stream read_stream_index]. replace (Z.to_nat size) with (S (Z.to_nat (size - 1))) by lia.
  cbn [read_stream_rows]. unfold read_stream_entry, bytes_per_entry in *.
  destruct (Z.to_nat w1) eqn:E1; [|reflexivity]. cbn [read_field rbind].
  destruct (Z.to_nat w2) eqn:E2; [|reflexivity]. cbn [read_field rbind].
  destruct (Z.to_nat w3) eqn:E3; [lia|]. reflexivity.
Qed.
Theorem C18_out_of_bounds_default_index_refuted : forall w1 w2 w3 size, (1 <= size)%Z -> (1 <= bytes_per_entry (w1, w2, w3))%Z ->
  parse_xref_stream [w1; w2; w3] None size [] = Undef.
Proof. intros w1 w2 w3 size Hs Hb. exact (C18_out_of_bounds_refuted w1 w2 w3 0 size [] size Hs Hb). Qed.
(** with enough data, whatever it holds, there is no undefined behaviour: the result is a section or an error *)
Lemma add_defined : forall a b, add_u64_int a b <> Undef.
Proof.
  intros a b. unfold add_u64_int, safe_addition. change (common uint64_t int32_t) with uint64_t. unfold arith. cbn [uint64_t sgn]. fold uint64_t.
  cbn [rbind]. repeat (match goal with |- context [if ?c then _ else _] => destruct c end; try discriminate).
Qed.
Lemma entry_defined : forall w1 w2 w3 first idx s, (bytes_per_entry (w1, w2, w3) <= Z.of_nat (List.length s))%Z ->
  read_stream_entry (w1, w2, w3) first idx s <> Undef.
Proof.
  intros w1 w2 w3 first idx s H. unfold bytes_per_entry in H. unfold read_stream_entry.
  destruct (field_defined (Z.to_nat w1) 0 s ltac:(lia)) as (f1 & E1). rewrite E1. cbn [rbind].
  destruct (field_defined (Z.to_nat w2) 0 (skipn (Z.to_nat w1) s)) as (f2 & E2); [rewrite skipn_length; lia|]. rewrite E2. cbn [rbind].
  destruct (field_defined (Z.to_nat w3) 0 (skipn (Z.to_nat w2) (skipn (Z.to_nat w1) s))) as (f3 & E3); [rewrite !skipn_length; lia|]. rewrite E3. cbn [rbind].
  assert (Ha := add_defined (Z.to_N (wrap uint64_t first)) idx). destruct (add_u64_int _ _); cbn [rbind]; try discriminate; [|congruence].
  destruct (f1 =? 0)%Z; [|destruct (f1 =? 1)%Z; [|destruct (f1 =? 2)%Z; [|discriminate]]]; unfold to_u16, to_u64;
    repeat (match goal with |- context [if ?c then _ else _] => destruct c end; cbn [rbind]; try discriminate).
Qed.
Lemma rows_defined : forall w1 w2 w3 first k idx s t, (0 <= idx)%Z -> (idx + Z.of_nat k <= int32_max)%Z ->
  (Z.of_nat k * bytes_per_entry (w1, w2, w3) <= Z.of_nat (List.length s))%Z -> read_stream_rows (w1, w2, w3) first k idx s t <> Undef.
Proof.
  intros w1 w2 w3 first. assert (Hb : (0 <= bytes_per_entry (w1, w2, w3))%Z) by (unfold bytes_per_entry; lia).
  induction k as [|k IH]; intros idx s t H0 Hk Hlen; cbn [read_stream_rows]; [discriminate|].
  assert (Hd := entry_defined w1 w2 w3 first idx s ltac:(nia)).
  destruct (read_stream_entry (w1, w2, w3) first idx s) as [[e r]| | |] eqn:E; cbn [rbind]; try discriminate; [|congruence].
  replace (int32_max <=? idx)%Z with false by lia. apply entry_length in E. apply IH; lia.
Qed.
Theorem C18_enough_data_partial : forall w1 w2 w3 index size data,
  let l := match index with Some l => l | None => [0%Z; size] end in
  Forall (fun z => (z <= int32_max)%Z) l ->
  (bytes_per_entry (w1, w2, w3) * entries_announced l <= Z.of_nat (List.length data))%Z ->
  (exists t, parse_xref_stream [w1; w2; w3] index size data = Ok t) \/ (exists e, parse_xref_stream [w1; w2; w3] index size data = Throw e).
Proof.
  intros w1 w2 w3 index size data l Hl Hlen. assert (Hb : (0 <= bytes_per_entry (w1, w2, w3))%Z) by (unfold bytes_per_entry; lia).
  cbn [parse_xref_stream]. fold l. clearbody l. revert data Hlen. generalize (@nil xentry).
  assert (Hnf : forall k idx first s t, read_stream_rows (w1, w2, w3) first k idx s t <> NoFuel).
  { assert (Hff : forall n acc s, read_field n acc s <> NoFuel).
    { induction n as [|n IH]; intros acc s; cbn [read_field]; [discriminate|]. destruct s; [discriminate|]. apply IH. }
    assert (Hnn : forall a b, add_u64_int a b <> NoFuel).
    { intros a b. unfold add_u64_int, safe_addition, arith. change (common uint64_t int32_t) with uint64_t. cbn [uint64_t sgn]. fold uint64_t. cbn [rbind].
      repeat (match goal with |- context [if ?c then _ else _] => destruct c end; try discriminate). }
    induction k as [|k IH]; intros idx first s t; cbn [read_stream_rows]; [discriminate|]. apply rbind_nofuel.
    - unfold read_stream_entry. repeat (apply rbind_nofuel; [first [apply Hff|apply Hnn]|intros]; try (destruct a; [])).
      all: try (destruct x as [? ?]).
      all: repeat (apply rbind_nofuel; [first [apply Hff|apply Hnn]|intros]; try (destruct x as [? ?])).
      all: repeat (match goal with |- context [if ?c then _ else _] => destruct c end; try discriminate);
        unfold to_u16, to_u64; repeat (match goal with |- context [if ?c then _ else _] => destruct c end; cbn [rbind]; try discriminate).
    - intros [e r] _. destruct (_ <=? _)%Z; [discriminate|apply IH]. }
  assert (Hk : exists k, (List.length l <= k)%nat) by eauto. destruct Hk as [k Hk]. revert l Hk Hl.
  induction k as [|k IH]; intros l Hk Hl acc data Hlen; destruct l as [|a [|b more]]; cbn [read_stream_index entries_announced List.length] in *; try lia; eauto.
  inversion Hl as [|? ? _ Hl1]; subst. inversion Hl1 as [|? ? Hbm Hl2]; subst.
  assert (Hann : (0 <= entries_announced more)%Z).
  { clear. assert (H : exists k, (List.length more <= k)%nat) by eauto. destruct H as [k Hk]. revert more Hk.
    induction k as [|k IH]; intros [|a [|b m]] Hk; cbn [entries_announced List.length] in *; try lia. specialize (IH m ltac:(lia)). lia. }
  assert (Hd := rows_defined w1 w2 w3 a (Z.to_nat b) 0 data acc ltac:(lia)).
  destruct (read_stream_rows (w1, w2, w3) a (Z.to_nat b) 0 data acc) as [[t1 r]| | |] eqn:E; cbn [rbind]; eauto.
  - apply rows_length in E. apply IH; [lia|exact Hl2|]. nia.
  - exfalso. apply Hd; [|nia|reflexivity]. unfold int32_max in *. lia.
  - exfalso. eapply Hnf. exact E.
Qed.
(** 7.5.8.2: when the first width is zero, the type shall be 1; the library reads every such entry as free *)
Lemma xadd_Forall : forall (P : xentry -> Prop) e t, P e -> Forall P t -> Forall P (xadd e t).
Proof. intros P e t He Ht. rewrite Forall_forall in *. intros x Hx. destruct (xadd_In _ _ _ Hx) as [->|H]; auto. Qed.
Theorem C18_default_type_refuted : forall w2 w3 index size data t, parse_xref_stream [0%Z; w2; w3] index size data = Ok t ->
  Forall (fun e => exists num gen next, record_of e = RFree num gen next) t.
Proof.
  intros w2 w3 index size data t H. cbn [parse_xref_stream] in H. revert H. generalize (match index with Some l => l | None => [0%Z; size] end).
  intros l. enough (G : forall k l s acc, (List.length l <= k)%nat -> Forall (fun e => exists num gen next, record_of e = RFree num gen next) acc ->
    read_stream_index (0%Z, w2, w3) l s acc = Ok t -> Forall (fun e => exists num gen next, record_of e = RFree num gen next) t).
  { intros H. eapply (G (List.length l)); [apply le_n|constructor|exact H]. }
  clear. induction k as [|k IH]; intros l s acc Hk Ha H; destruct l as [|a [|b more]]; cbn [read_stream_index List.length] in *; try lia; try discriminate;
    try (inversion H; subst; exact Ha).
  apply rbind_ok in H. destruct H as ([t1 r] & H1 & H). apply (IH more r t1); [lia| |exact H]. clear IH H Hk.
  revert H1. generalize 0%Z at 2 as idx. revert s acc Ha. induction (Z.to_nat b) as [|n IHn]; intros s acc Ha idx H1; cbn [read_stream_rows] in H1.
  - inversion H1; subst. exact Ha.
  - apply rbind_ok in H1. destruct H1 as ([e q] & He & H1). destruct (_ <=? _)%Z; [discriminate|]. eapply IHn; [|exact H1]. apply xadd_Forall; [|exact Ha].
    unfold read_stream_entry in He. cbn [Z.to_nat read_field rbind] in He. apply rbind_ok in He. destruct He as ([f2 q2] & _ & He).
    apply rbind_ok in He. destruct He as ([f3 q3] & _ & He). apply rbind_ok in He. destruct He as (num & _ & He).
    cbn [Z.eqb] in He. apply rbind_ok in He. destruct He as (g & _ & He). inversion He; subst. cbn. eauto.
Qed.
Example C18_case : bytes_per_entry (1, 2, 1)%Z = 4%Z /\ entries_announced [0; 2; 5; 1]%Z = 3%Z /\
  parse_xref_stream [1; 2; 1]%Z (Some [0; 2; 5; 1]%Z) 6 [0; 0; 0; 255; 1; 1; 0; 0; 2; 0; 5; 3] =
  Ok [ {| xnum := 0; xgen := 255; xdata := KFree 0 |}; {| xnum := 1; xgen := 0; xdata := KUsed 256 true |};
       {| xnum := 5; xgen := 0; xdata := KComp 5 3 |} ].
Proof. repeat split. Qed.

(** ** C19 *)
Lemma sorted_nodup : forall t, xsorted t -> NoDup (map xnum t).
Proof.
  unfold xsorted. induction t as [|e t IH]; intros H; cbn [map]; [constructor|]. inversion H as [|? ? H1 H2]; subst. constructor; [|auto].
  intros C. apply in_map_iff in C. destruct C as (x & Ex & Hx). rewrite Forall_forall in H2. specialize (H2 x Hx). unfold xlt in H2. lia.
Qed.
Definition numbers_below (n : N) : list N := map N.of_nat (seq 0 (N.to_nat n)).
Lemma numbers_below_In : forall n k, In k (numbers_below n) <-> k < n.
Proof.
  intros n k. unfold numbers_below. rewrite in_map_iff. split.
  - intros (x & <- & Hx). apply in_seq in Hx. lia.
  - intros H. exists (N.to_nat k). split; [lia|]. apply in_seq. lia.
Qed.
Lemma numbers_below_length : forall n, List.length (numbers_below n) = N.to_nat n.
Proof. intros n. unfold numbers_below. rewrite map_length, seq_length. reflexivity. Qed.
Lemma entry_for_some : forall n t, entry_for n t <> None <-> In n (map xnum t).
Proof.
  intros n t. unfold entry_for. rewrite in_map_iff. split.
  - destruct (find _ t) as [e|] eqn:F; [|cbn; congruence]. intros _. apply find_some in F. exists e. split; [lia|tauto].
  - intros (e & En & He) C. destruct (find (fun e => xnum e =? n) t) as [x|] eqn:F; [discriminate|]. apply (find_none _ _ F) in He. lia.
Qed.
(** the value written is never more than the highest number plus one *)
Theorem C19_size_never_too_large : forall es n, (forall k, last_added k es <> None -> k < n) -> recalculate_size (section_of es) <= n.
Proof.
  intros es n H. unfold recalculate_size. assert (HN := sorted_nodup _ (section_sorted es)).
  assert (L := NoDup_incl_length HN (l' := numbers_below n)). rewrite map_length, numbers_below_length in L.
  enough (incl (map xnum (section_of es)) (numbers_below n)) by (specialize (L H0); lia).
  intros k Hk. apply numbers_below_In. apply H. rewrite <- entry_for_section. apply entry_for_some. exact Hk.
Qed.
(** it is the highest number plus one when the numbers have no gaps *)
Theorem C19_size_partial : forall es n, (forall k, last_added k es <> None <-> k < n) -> recalculate_size (section_of es) = n.
Proof.
  intros es n H. apply N.le_antisymm; [apply C19_size_never_too_large; intros k Hk; apply H; exact Hk|].
  unfold recalculate_size. assert (HN : NoDup (numbers_below n)).
  { unfold numbers_below. apply Injective_map_NoDup; [intros a b E; lia|apply seq_NoDup]. }
  assert (L := NoDup_incl_length HN (l' := map xnum (section_of es))). rewrite map_length, numbers_below_length in L.
  enough (incl (numbers_below n) (map xnum (section_of es))) by (specialize (L H0); lia).
  intros k Hk. apply numbers_below_In in Hk. apply entry_for_some. rewrite entry_for_section. apply H. exact Hk.
Qed.
(** with any gap below the highest number it is too small: there is an object whose number Size does not cover *)
Theorem C19_gap_refuted : forall es gap high, last_added high es <> None -> gap < high -> last_added gap es = None ->
  (forall k, last_added k es <> None -> k <= high) -> recalculate_size (section_of es) < high + 1.
Proof.
  intros es gap high Hh Hg Hn Hm. unfold recalculate_size. assert (HN := sorted_nodup _ (section_sorted es)).
  assert (Hincl : incl (gap :: map xnum (section_of es)) (numbers_below (high + 1))).
  { intros k [<-|Hk]; apply numbers_below_In; [lia|]. enough (k <= high) by lia. apply Hm. rewrite <- entry_for_section. apply entry_for_some. exact Hk. }
  assert (HN2 : NoDup (gap :: map xnum (section_of es))).
  { constructor; [|exact HN]. intros C. apply entry_for_some in C. rewrite entry_for_section in C. congruence. }
  assert (L := NoDup_incl_length HN2 Hincl). cbn [List.length] in L. rewrite map_length, numbers_below_length in L. lia.
Qed.
Definition dense_entries : list xentry := [ {| xnum := 2; xgen := 0; xdata := KUsed 9 true |}; {| xnum := 0; xgen := 65535; xdata := KFree 0 |}; {| xnum := 1; xgen := 0; xdata := KUsed 30 true |} ].
Example C19_case : (forall k, last_added k dense_entries <> None <-> k < 3) /\ recalculate_size (section_of dense_entries) = 3.
Proof.
  split; [|reflexivity]. intros k. unfold last_added. cbn [dense_entries rev app find xnum].
  destruct (1 =? k) eqn:E1; [split; [lia|discriminate]|]. destruct (0 =? k) eqn:E0; [split; [lia|discriminate]|].
  destruct (2 =? k) eqn:E2; [split; [lia|discriminate]|]. cbn. split; [congruence|lia].
Qed.
Example C19_case_gap : let es := [ {| xnum := 0; xgen := 65535; xdata := KFree 0 |}; {| xnum := 6; xgen := 0; xdata := KUsed 30 true |} ] in
  last_added 6 es <> None /\ last_added 3 es = None /\ recalculate_size (section_of es) = 2.
Proof. cbv zeta. repeat split; discriminate. Qed.

Print Assumptions C16_table_roundtrip_exact.
Print Assumptions C16_table_roundtrip_partial.
Print Assumptions C16_next_free_refuted.
Print Assumptions C16_released_entry_refuted.
Print Assumptions C16_rows_have_20_bytes.
Print Assumptions C17_stream_roundtrip_partial.
Print Assumptions C17_existing_widths_partial.
Print Assumptions C17_first_number_refuted.
Print Assumptions C17_large_value_refuted.
Print Assumptions C17_too_wide_refused.
Print Assumptions C18_short_data_never_accepted.
Print Assumptions C18_out_of_bounds_refuted.
Print Assumptions C18_out_of_bounds_default_index_refuted.
Print Assumptions C18_enough_data_partial.
Print Assumptions C18_default_type_refuted.
Print Assumptions C19_size_never_too_large.
Print Assumptions C19_size_partial.
Print Assumptions C19_gap_refuted.

(** Files saved with a cross-reference stream follow the standard. *)
From Coq Require Import List NArith ZArith Bool Lia String Sorted Permutation.
From Coq Require Import List.
From Verif.Model Require Import Base Char Numbers SMap Object Token Parser Arith Containers Xref StartXref Header FileWrite Chain ObjStream StreamFile Compressed.
From Verif.Spec Require Import Strings Grammar Xref FileWrite ObjStream StreamFile Conforming Compressed WrittenStream.
From Verif.Proof Require Import Tac Numbers Strings Token SMap Parser Writer StreamObj Arith Xref XrefStream StartXref FileWrite ObjStream StreamFile Conforming Compressed.
From Verif.Proof Require Written.
Import Written(short_digits, number_written, consecutive_bound).
Import ListNotations.
Local Open Scope N_scope.

(** ** rows *)
Lemma be_acc : forall n v a, fold_left (fun a b => a * 256 + b) (Xref.be_bytes n v) a = a * 256 ^ N.of_nat n + v mod 256 ^ N.of_nat n.
Proof.
  induction n as [|n IH]; intros v a.
  - cbn [Xref.be_bytes fold_left]. change (256 ^ N.of_nat 0) with 1. rewrite N.mod_1_r. lia.
  - cbn [Xref.be_bytes fold_left]. rewrite IH, Nat2N.inj_succ, N.pow_succ_r'. set (p := 256 ^ N.of_nat n).
    assert (Hp : p <> 0) by (unfold p; apply N.pow_nonzero; lia). rewrite (N.mul_comm 256 p), (N.mod_mul_r v p 256) by lia. lia.
Qed.
Lemma be_value : forall n v, v < 256 ^ N.of_nat n -> big_endian (Xref.be_bytes n v) = v.
Proof. intros n v H. unfold big_endian. rewrite be_acc, N.mod_small by exact H. lia. Qed.
Lemma be_shape : forall n v, List.length (Xref.be_bytes n v) = n /\ all_bytes (Xref.be_bytes n v).
Proof.
  induction n as [|n IH]; intros v; cbn [Xref.be_bytes]; [split; [reflexivity|constructor]|]. destruct (IH v) as [H1 H2]. split; [cbn [List.length]; lia|].
  constructor; [|exact H2]. apply N.mod_lt. discriminate.
Qed.
Definition row_of_entry (e : xentry) : entry_row :=
  match xdata e with KUsed off _ => AtOffset (Z.to_N off) (xgen e) | KFree _ => Deleted (xgen e) | KComp s i => Packed s i end.
Definition listed (e : xentry) : N * entry_row := (xnum e, row_of_entry e).
Lemma row_follows : forall w1 w2 w3 e, entry_in_range e -> fits (w1, w2, w3) e ->
  exists row, stream_row (w1, w2, w3) e = Ok row /\ row_data (Z.to_nat w1) (Z.to_nat w2) (Z.to_nat w3) row (row_of_entry e).
Proof.
  intros w1 w2 w3 e Hr (H1 & H2 & H3 & F2 & F3). unfold stream_row. destruct (range_values e Hr) as [Hv _]. unfold values_small in Hv.
  assert (Hsem : exists f2 f3, field_values e = (f2, f3)) by (destruct (field_values e); eauto).
  destruct Hsem as (f2 & f3 & Ef). rewrite Ef in *. cbn [fst snd] in *. destruct Hv as [S2 S3].
  assert (Ht : entry_type e < 256 ^ Z.to_N w1).
  { apply N.lt_le_trans with (256 ^ 1); [unfold entry_type; destruct (xdata e); reflexivity|apply N.pow_le_mono_r; lia]. }
  assert (Ht63 : entry_type e < 2 ^ 63) by (unfold entry_type; destruct (xdata e); reflexivity).
  rewrite !write_value_ok by (assumption || lia). cbn [rbind]. eexists. split; [reflexivity|].
  assert (Hw : forall w, (0 <= w)%Z -> N.of_nat (Z.to_nat w) = Z.to_N w) by lia.
  assert (V1 : big_endian (Xref.be_bytes (Z.to_nat w1) (entry_type e)) = entry_type e) by (apply be_value; rewrite Hw by lia; exact Ht).
  assert (V2 : big_endian (Xref.be_bytes (Z.to_nat w2) f2) = f2) by (apply be_value; rewrite Hw by lia; exact F2).
  assert (V3 : big_endian (Xref.be_bytes (Z.to_nat w3) f3) = f3) by (apply be_value; rewrite Hw by lia; exact F3).
  destruct (be_shape (Z.to_nat w1) (entry_type e)) as [L1 B1]. destruct (be_shape (Z.to_nat w2) f2) as [L2 B2]. destruct (be_shape (Z.to_nat w3) f3) as [L3 B3].
  assert (T : row_type (Xref.be_bytes (Z.to_nat w1) (entry_type e)) = entry_type e).
  { destruct (Xref.be_bytes (Z.to_nat w1) (entry_type e)) as [|b bs] eqn:X; [cbn in L1; lia|]. exact V1. }
  exists (Xref.be_bytes (Z.to_nat w1) (entry_type e)), (Xref.be_bytes (Z.to_nat w2) f2), (Xref.be_bytes (Z.to_nat w3) f3).
  split; [reflexivity|]. split; [exact L1|]. split; [exact L2|]. split; [exact L3|]. split; [repeat (apply Forall_app; split); assumption|].
  rewrite T, V2, V3. split; [exact Ht63|]. split; [exact S2|]. split; [exact S3|].
  destruct Hr as (Hn63 & Hg & Hd). unfold row_of_entry, entry_type, field_values in *. destruct (xdata e) as [next|o u|a b]; apply pair_equal_spec in Ef; destruct Ef as [<- <-].
  - auto.
  - destruct Hd as [Ho _]. rewrite wrapu64_small; [auto|]. change (2 ^ 63)%Z with 9223372036854775808%Z in Ho. change (2 ^ 64)%Z with 18446744073709551616%Z. lia.
  - auto.
Qed.

(** ** subsections *)
Lemma listed_rows : forall l first, consecutive first l ->
  combine (map (fun i => first + N.of_nat i) (List.seq 0 (List.length l))) (map row_of_entry l) = map listed l.
Proof.
  intros l first H. rewrite <- (map_length row_of_entry l), count_combine. change (N.of_nat 0) with 0. rewrite N.add_0_r.
  revert first H. induction l as [|e l IH]; intros first H; [reflexivity|]. destruct H as [H1 H2]. cbn [map count_up]. unfold listed at 1. rewrite H1. f_equal. apply IH. exact H2.
Qed.
Lemma run_closed : forall w1 w2 w3 idx p index data rows, p <> [] -> Forall entry_in_range p -> Forall (fits (w1, w2, w3)) p -> consecutive idx p ->
  N.of_nat (List.length p) < 2 ^ 31 -> subsections_data (Z.to_nat w1) (Z.to_nat w2) (Z.to_nat w3) index data rows ->
  subsections_data (Z.to_nat w1) (Z.to_nat w2) (Z.to_nat w3) (OInt (Z.of_N idx) :: OInt (Z.of_N (N.of_nat (List.length p))) :: index)
    (rows_of (w1, w2, w3) p ++ data) (map listed p ++ rows).
Proof.
  intros w1 w2 w3 idx p index data rows Hne Hr Hf Hc Hl H.
  assert (G : exists texts, rows_of (w1, w2, w3) p = concat texts /\ Forall2 (row_data (Z.to_nat w1) (Z.to_nat w2) (Z.to_nat w3)) texts (map row_of_entry p)).
  { clear - Hr Hf. induction p as [|e p IH]; [exists []; split; [reflexivity|constructor]|]. inversion Hr; inversion Hf; subst. destruct IH as (texts & E & F); [assumption|assumption|].
    destruct (row_follows w1 w2 w3 e ltac:(assumption) ltac:(assumption)) as (row & E1 & R1). exists (row :: texts). cbn [rows_of concat map]. rewrite E1, E.
    split; [reflexivity|constructor; assumption]. }
  destruct G as (texts & E & F). rewrite E, <- (listed_rows p idx Hc), <- (map_length row_of_entry p). rewrite nat_N_Z. apply sd_cons; [exact F| | |exact H]; rewrite map_length.
  - exact (consecutive_bound p idx Hc Hr Hne).
  - exact Hl.
Qed.
Lemma index_follows : forall w1 w2 w3 l p idx prev index data,
  xsorted (p ++ l) -> Forall entry_in_range (p ++ l) -> Forall (fits (w1, w2, w3)) (p ++ l) -> consecutive idx p ->
  (p <> [] -> prev = idx + N.of_nat (List.length p) - 1) -> (p = [] -> match l with [] => False | e :: _ => xnum e = idx end) ->
  N.of_nat (List.length (p ++ l)) < 2 ^ 31 -> stream_rows (w1, w2, w3) l idx (N.of_nat (List.length p)) prev = Ok (index, data) ->
  subsections_data (Z.to_nat w1) (Z.to_nat w2) (Z.to_nat w3) (map (fun n => OInt (Z.of_N n)) index) (rows_of (w1, w2, w3) p ++ data) (map listed (p ++ l)).
Proof.
  intros w1 w2 w3. induction l as [|e l IH]; intros p idx prev index data Hs Hr Hf Hc Hp Hp0 Hlen H.
  - cbn [stream_rows] in H. apply Ok_inj in H. apply pair_equal_spec in H. destruct H as [<- <-]. rewrite (app_nil_r p) in *. rewrite <- (app_nil_r (map listed p)).
    apply run_closed; try assumption. apply sd_nil.
  - assert (Hre : entry_in_range e) by (rewrite Forall_forall in Hr; apply Hr; apply in_or_app; right; left; reflexivity).
    assert (Hfe : fits (w1, w2, w3) e) by (rewrite Forall_forall in Hf; apply Hf; apply in_or_app; right; left; reflexivity).
    assert (Happ : forall b, p ++ e :: b = (p ++ [e]) ++ b) by (intros; rewrite <- app_assoc; reflexivity).
    destruct (row_follows w1 w2 w3 e Hre Hfe) as (row & Erow & _).
    assert (Cont : forall ix dt, consecutive idx (p ++ [e]) -> stream_rows (w1, w2, w3) l idx (N.of_nat (List.length p) + 1) (xnum e) = Ok (ix, dt) ->
      subsections_data (Z.to_nat w1) (Z.to_nat w2) (Z.to_nat w3) (map (fun n => OInt (Z.of_N n)) ix) (rows_of (w1, w2, w3) p ++ row ++ dt) (map listed (p ++ e :: l))).
    { intros ix dt Hc2 E. rewrite (Happ l) in *. assert (G := IH (p ++ [e]) idx (xnum e) ix dt Hs Hr Hf Hc2).
      rewrite rows_of_app in G. cbn [rows_of] in G. rewrite Erow, app_nil_r, <- !app_assoc in G. rewrite <- !app_assoc. apply G; [| |rewrite app_assoc; exact Hlen|].
      - intros _. apply consecutive_app in Hc2. destruct Hc2 as [_ [X _]]. rewrite app_length. cbn [List.length]. lia.
      - intros C. destruct p; discriminate.
      - rewrite app_length. cbn [List.length]. replace (N.of_nat (List.length p + 1)) with (N.of_nat (List.length p) + 1) by lia. exact E. }
    cbn [stream_rows] in H. destruct p as [|x p].
    + specialize (Hp0 eq_refl). cbn [List.length N.of_nat N.eqb rbind] in H. rewrite Erow in H. cbn [rbind] in H. apply rbind_ok in H. destruct H as ([ix dt] & E & H).
      apply Ok_inj, pair_equal_spec in H. destruct H as [<- <-]. cbn [app] in *. apply (Cont ix dt); [cbn; auto|exact E].
    + replace (N.of_nat (List.length (x :: p)) =? 0) with false in H by (cbn [List.length]; lia).
      specialize (Hp ltac:(discriminate)).
      assert (Hlast : idx + N.of_nat (List.length (x :: p)) <= xnum e).
      { apply xsorted_app in Hs. destruct Hs as (_ & _ & Hs).
        assert (Hin : exists y, In y (x :: p) /\ xnum y = idx + N.of_nat (List.length (x :: p)) - 1).
        { clear -Hc. revert x idx Hc. induction p as [|y p IHp]; intros x idx Hc.
          - exists x. split; [left; reflexivity|]. cbn in Hc |- *. lia.
          - cbn [consecutive] in Hc. destruct Hc as [H1 H2]. destruct (IHp y (idx + 1) H2) as (z & Hz & En).
            exists z. split; [right; exact Hz|]. cbn [List.length] in *. lia. }
        destruct Hin as (y & Hy & Ey). rewrite Forall_forall in Hs. specialize (Hs y Hy). inversion Hs; subst. unfold xlt in *. cbn [List.length] in *. lia. }
      rewrite add_u64_ok in H by (destruct Hre as (X & _); change (2 ^ 63) with 9223372036854775808 in X; change (2 ^ 64) with 18446744073709551616; cbn [List.length] in *; lia).
      cbn [rbind] in H. destruct (xnum e =? prev + 1) eqn:E.
      * cbn [rbind] in H. rewrite Erow in H. cbn [rbind] in H. apply rbind_ok in H. destruct H as ([ix dt] & E2 & H). apply Ok_inj, pair_equal_spec in H. destruct H as [<- <-].
        cbn [app]. apply (Cont ix dt); [|exact E2]. apply consecutive_app. split; [exact Hc|]. cbn [consecutive]. split; [cbn [List.length] in *; lia|exact I].
      * cbn [rbind] in H. rewrite Erow in H. cbn [rbind] in H. apply rbind_ok in H. destruct H as ([ix dt] & E2 & H). apply Ok_inj, pair_equal_spec in H. destruct H as [<- <-].
        apply xsorted_app in Hs. destruct Hs as (Hs1 & Hs2 & Hs12). apply Forall_app in Hr. destruct Hr as [Hr1 Hr2].
        apply Forall_app in Hf. destruct Hf as [Hf1 Hf2]. rewrite app_length in Hlen. rewrite (map_app listed (x :: p) (e :: l)). change (map (fun n => OInt (Z.of_N n)) ([idx; N.of_nat (List.length (x :: p))] ++ ix)) with (OInt (Z.of_N idx) :: OInt (Z.of_N (N.of_nat (List.length (x :: p)))) :: map (fun n => OInt (Z.of_N n)) ix).
        apply run_closed; try assumption; [discriminate|lia|].
        assert (G := IH [e] (xnum e) (xnum e) ix dt Hs2 Hr2 Hf2). cbn [rows_of app] in G. rewrite Erow, app_nil_r in G. apply G.
        -- cbn; auto.
        -- intros _. cbn [List.length]. lia.
        -- discriminate.
        -- cbn [List.length] in *. lia.
        -- change (N.of_nat (List.length [e])) with (0 + 1). exact E2.
Qed.

(** ** object streams *)
Definition member_of (c : comp_entry) : N * obj := (ce_num c, ce_obj c).
Fixpoint places (off : N) (l : list comp_entry) : list (N * N) := match l with [] => [] | e :: t => (ce_num e, off) :: places (off + (tlen e + 1)) t end.
Lemma head_pairs : forall l off, Forall (fun e => ce_num e < 2 ^ 63) l -> exists text, htext off l ++ [32] = 32 :: text /\ pairs_text text (places off l).
Proof.
  induction l as [|e l IH]; intros off H; cbn [htext places app]; [exists []; split; [reflexivity|constructor]|]. inversion H as [|? ? H1 H2]; subst.
  destruct (IH (off + (tlen e + 1)) H2) as (text & E & P). exists (to_string_N (ce_num e) ++ [32] ++ to_string_N off ++ [32] ++ text). split.
  - f_equal. rewrite <- !app_assoc. f_equal. cbn [app]. f_equal. rewrite <- app_assoc, E. reflexivity.
  - constructor; auto using number_written, gap32; discriminate.
Qed.
Lemma data_items : forall l, Forall (fun e => writable (ce_obj e)) l -> items_text (dtext l) (map ce_obj l).
Proof.
  induction l as [|e l IH]; intros H; cbn [dtext map]; [apply it_nil; constructor|]. inversion H as [|? ? H1 H2]; subst.
  change (32 :: to_pdf (ce_obj e) ++ dtext l) with ([32] ++ to_pdf (ce_obj e) ++ dtext l). apply it_cons; [exact gap32|apply to_pdf_text; exact H1|apply IH; exact H2|].
  intros _. apply dtext_look. exact H2.
Qed.
Lemma data_places : forall l pre off first, Forall (fun e => writable (ce_obj e)) l -> N.of_nat (List.length pre) + 1 = first + off ->
  Forall2 (fun p mem => fst p = fst mem /\ exists behind, items_text (skipn (N.to_nat (first + snd p)) (pre ++ dtext l)) (snd mem :: behind)) (places off l) (map member_of l).
Proof.
  induction l as [|e l IH]; intros pre off first H Hp; cbn [places map]; constructor; inversion H as [|? ? H1 H2]; subst; cbn [fst snd member_of].
  - split; [reflexivity|]. exists (map ce_obj l). cbn [dtext]. replace (N.to_nat (first + off)) with (List.length (pre ++ [32])) by (rewrite app_length; cbn; lia).
    replace (pre ++ 32 :: to_pdf (ce_obj e) ++ dtext l) with ((pre ++ [32]) ++ to_pdf (ce_obj e) ++ dtext l) by (rewrite <- app_assoc; reflexivity). rewrite skipn_exact.
    apply (it_cons [] (to_pdf (ce_obj e))); [constructor|apply to_pdf_text; exact H1|apply data_items; exact H2|intros _; apply dtext_look; exact H2].
  - cbn [dtext]. replace (pre ++ 32 :: to_pdf (ce_obj e) ++ dtext l) with ((pre ++ 32 :: to_pdf (ce_obj e)) ++ dtext l) by (rewrite <- app_assoc; reflexivity).
    apply IH; [exact H2|]. rewrite app_length. unfold tlen. cbn [List.length]. lia.
Qed.
Lemma rebuilt_follows : forall l n first body m, l <> [] -> Forall (fun e => writable (ce_obj e) /\ ce_num e < 2 ^ 63) l -> NoDup (map ce_num l) ->
  rebuild_object_stream l = (n, first, body) -> N.of_nat (List.length body) < 2 ^ 63 ->
  In (str "First", OInt (Z.of_N first)) m -> In (str "N", OInt (Z.of_N n)) m ->
  holds_objects m body (map member_of (sort_by_index l)) /\ n = N.of_nat (List.length l).
Proof.
  intros l n first body m Hne Hf Hd H Hb HF HN. unfold rebuild_object_stream in H. assert (P := sort_perm l). set (s := sort_by_index l) in *.
  destruct (objstm_parts true 0 s) as [h dt] eqn:E. apply pair_equal_spec in H. destruct H as [H <-]. apply pair_equal_spec in H. destruct H as [<- <-].
  assert (Hs : Forall (fun e => writable (ce_obj e) /\ ce_num e < 2 ^ 63) s) by (apply (Permutation_Forall (Permutation_sym P)); exact Hf).
  assert (Hs1 : Forall (fun e => writable (ce_obj e)) s) by (revert Hs; apply Forall_impl; tauto).
  assert (Hs2 : Forall (fun e => ce_num e < 2 ^ 63) s) by (revert Hs; apply Forall_impl; tauto).
  assert (Hsn : s <> []) by (intros X; rewrite X in P; apply Permutation_nil in P; contradiction).
  assert (Hparts : 32 :: h = htext 0 s /\ 32 :: dt = dtext s) by (destruct s as [|e t]; [congruence|exact (parts_true e t 0 h dt E)]). destruct Hparts as [Eh Ed].
  destruct (head_pairs s 0 Hs2) as (text & Et & Pt). rewrite <- Eh in Et. cbn [app] in Et. assert (Eh2 : h ++ [32] = text) by congruence.
  split; [|rewrite (Permutation_length P); reflexivity].
  exists (N.of_nat (List.length h) + 1), [], text, dt, (places 0 s). split; [exact HF|]. split; [rewrite map_length, <- nat_N_Z; exact HN|].
  split; [cbn [app]; rewrite <- Eh2, <- app_assoc; reflexivity|]. split; [constructor|]. split; [exact Pt|]. split; [exact Hb|].
  split; [|split].
  - change (h ++ [32] ++ dt) with (h ++ 32 :: dt). rewrite Ed. apply data_places; [exact Hs1|lia].
  - rewrite map_map. cbn [member_of fst]. apply (Permutation_NoDup (l := map ce_num l)); [|exact Hd]. apply Permutation_map, Permutation_sym. exact P.
  - intros X. apply Hsn. destruct s; [reflexivity|discriminate].
Qed.

(** ** the order of the members *)
Lemma sorted_unique : forall A (R : A -> A -> Prop) a b, StronglySorted R a -> StronglySorted R b -> Permutation a b ->
  (forall x y, In x a -> In y a -> R x y -> R y x -> x = y) -> a = b.
Proof.
  intros A R. induction a as [|x a IH]; intros b Ha Hb P Hu; [apply Permutation_nil in P; congruence|]. destruct b as [|y b]; [apply Permutation_sym, Permutation_nil in P; discriminate|].
  inversion Ha as [|? ? Ha1 Ha2]; subst. inversion Hb as [|? ? Hb1 Hb2]; subst. rewrite Forall_forall in Ha2, Hb2.
  assert (E : x = y).
  { assert (X : In y (x :: a)) by (apply (Permutation_in _ (Permutation_sym P)); left; reflexivity). assert (Y : In x (y :: b)) by (apply (Permutation_in _ P); left; reflexivity).
    destruct X as [X|X]; [exact X|]. destruct Y as [Y|Y]; [congruence|]. apply Hu; [left; reflexivity|right; exact X|apply Ha2; exact X|apply Hb2; exact Y]. }
  subst y. f_equal. apply IH; [exact Ha1|exact Hb1|apply Permutation_cons_inv in P; exact P|]. intros u v U V. apply Hu; right; assumption.
Qed.

(** ** the data of the section *)
Lemma content_follows : forall w1 w2 w3 t w' index data, t <> [] -> xsorted t -> Forall entry_in_range t -> match t with [] => True | e :: _ => xnum e = 0 end ->
  N.of_nat (List.length t) < 2 ^ 31 -> (1 <= w1 <= 8)%Z -> (0 <= w2 <= 8)%Z -> (0 <= w3 <= 8)%Z -> recalculate_content (w1, w2, w3) t = Ok (w', index, data) ->
  exists w2' w3', w' = (w1, w2', w3') /\ (0 <= w2' <= 8)%Z /\ (0 <= w3' <= 8)%Z /\
    subsections_data (Z.to_nat w1) (Z.to_nat w2') (Z.to_nat w3') (map (fun n => OInt (Z.of_N n)) index) data (map listed t).
Proof.
  intros w1 w2 w3 t w' index data Hne Hs Hr H0 Hlen H1 H2 H3 H. unfold recalculate_content in H.
  destruct (max_bytes_ok t 0 0 Hr ltac:(lia) ltac:(lia)) as (m2 & m3 & Em & B2 & B3 & HF). rewrite Em in H. cbn [rbind] in H.
  destruct (raise_width_ok m2 w2 ltac:(lia) H2) as (w2' & E2 & R2 & L2). destruct (raise_width_ok m3 w3 ltac:(lia) H3) as (w3' & E3 & R3 & L3).
  rewrite E2, E3 in H. cbn [rbind] in H. apply rbind_ok in H. destruct H as ([ix dt] & Er & H). apply Ok_inj in H.
  apply pair_equal_spec in H. destruct H as [H <-]. apply pair_equal_spec in H. destruct H as [<- <-].
  exists w2', w3'. split; [reflexivity|]. split; [exact R2|]. split; [exact R3|].
  apply (index_follows w1 w2' w3' t [] 0 0 ix dt Hs Hr); [|exact I|congruence| |exact Hlen|exact Er].
  - cbn [app]. rewrite Forall_forall in *. intros e He. specialize (HF e He). destruct HF as [F2 F3]. unfold fits. repeat split; try lia.
    + eapply N.lt_le_trans; [exact F2|]. apply N.pow_le_mono_r; lia.
    + eapply N.lt_le_trans; [exact F3|]. apply N.pow_le_mono_r; lia.
  - intros _. destruct t; [congruence|exact H0].
Qed.

Section Main.
Variable supported : header -> Prop.
Variables encode decode : header -> bytes -> res bytes.
Hypothesis CD : codec supported encode decode.
Variable self : N * N.
Variable hdr : header.
Variable l : list (xentry * obj).
Hypothesis D : document supported self hdr l.
Notation todo := (fst (rebuild_section (compressed l))).
Notation part k := (entries_of_stream k (compressed l)).
Notation was_written file := (written encode self todo file).

(** what stands in the file *)
Record saved (v : version) (file : bytes) (l2 : list (xentry * obj)) (off : N) (m : header) (enc data : bytes) (w1 w2 w3 : nat) (index : list N) : Prop := {
  sv_written : Forall2 (fun a b => was_written file (fst a) (snd a) (fst b) (snd b)) l l2;
  sv_sorted : xsorted (map fst l2);
  sv_range : Forall entry_in_range (map fst l2);
  sv_rows : subsections_data w1 w2 w3 (map (fun n => OInt (Z.of_N n)) index) data (map listed (map fst l2));
  sv_type : (1 <= w1)%nat;
  sv_dec : decode m enc = Ok data;
  sv_W : sm_find (str "W") m = Some (OArr [OInt (Z.of_nat w1); OInt (Z.of_nat w2); OInt (Z.of_nat w3)]);
  sv_Index : sm_find (str "Index") m = Some (OArr (map (fun n => OInt (Z.of_N n)) index));
  sv_Size : sm_find (str "Size") m = Some (OInt (Z.of_nat (List.length l)));
  sv_Prev : sm_find (str "Prev") m = None;
  sv_other : forall k, all_bytes k -> ~ In k own_keys -> sm_find k m = sm_find k hdr;
  sv_map : writable (ODict m);
  sv_length : In (str "Length", OInt (Z.of_nat (List.length enc))) m;
  sv_file : exists body, file = write_header v ++ body ++ write_object (fst self) (snd self) (OStream m enc) ++ write_xref_offset (Z.of_N off) /\
    off = N.of_nat (List.length (write_header v ++ body))
}.
Lemma saved_parts : forall v file, write_stream_document encode v self hdr l = Ok file -> N.of_nat (List.length file) < 2 ^ 63 ->
  exists l2 off m enc data w1 w2 w3 index, saved v file l2 off m enc data w1 w2 w3 index.
Proof.
  intros v file Hw Hlen0. assert (Hlen : (Z.of_nat (List.length file) < 2 ^ 63)%Z) by (change (2 ^ 63) with 9223372036854775808 in Hlen0; change (2 ^ 63)%Z with 9223372036854775808%Z; lia).
  destruct (written_file supported encode decode CD (fun _ _ => Undef) self hdr l D v file Hw) as (body & l2 & w' & index & data & enc & stm & (Ee & Es & Efile) & (w & Ew & Ec) & F). clear Hw.
  set (E := map fst l2) in *.
  assert (Lall : List.length E = List.length l) by (unfold E; rewrite map_length; clear - F; induction F; cbn; auto).
  assert (Hnums : map (fun p => xnum (fst p)) l2 = map (fun p => xnum (fst p)) l) by (apply (Forall2_nums _ _ _ (fun a b X => wr_num _ _ _ _ _ _ _ _ X) F)).
  assert (Hsort : xsorted E) by (apply sorted_nums; rewrite Hnums; apply (dc_sorted _ _ _ _ D)).
  assert (Fb : forall e2 o2, In (e2, o2) l2 -> exists e o, In (e, o) l /\ was_written file e o e2 o2).
  { intros e2 o2 Hin. clear - F Hin. revert F. generalize todo. intros td F. induction F as [|[a1 a2] [b1 b2] x y P F IH]; [destruct Hin|]. cbn [fst snd] in *. destruct Hin as [X|Hin].
    - apply pair_equal_spec in X. destruct X as [-> ->]. exists a1, a2. split; [left; reflexivity|exact P].
    - destruct (IH Hin) as (e & o & A & B). exists e, o. split; [right; exact A|exact B]. }
  assert (Hrange : Forall entry_in_range E).
  { apply Forall_forall. intros x Hx. unfold E in Hx. apply in_map_iff in Hx. destruct Hx as ([e2 o2] & <- & Hin). destruct (Fb _ _ Hin) as (e & o & A & B).
    apply (written_range supported encode (fun _ _ => Undef) self hdr l D file e o e2 o2 Hlen A B). }
  assert (Hfirst : match E with [] => True | e :: _ => xnum e = 0 end).
  { destruct (dc_first _ _ _ _ D) as (p & t & El & E0). clear - F El E0. rewrite El in F. inversion F as [|? b ? y P]; subst. unfold E. cbn [map]. rewrite (wr_num _ _ _ _ _ _ _ _ P). exact E0. }
  assert (Hne : E <> []).
  { destruct (dc_first _ _ _ _ D) as (p & t & El & _). intros X. rewrite X, El in Lall. discriminate. }
  assert (Hcount := dc_count _ _ _ _ D). rewrite <- Lall in Hcount.
  destruct (widths_ok E Hrange) as (w1 & w2 & w3 & Ew' & R1 & R2 & R3). rewrite Ew in Ew'. apply Ok_inj in Ew'. subst w. specialize (R1 Hne).
  destruct (content_follows w1 w2 w3 E w' index data Hne Hsort Hrange Hfirst ltac:(change (2 ^ 31) with 2147483648; lia) R1 R2 R3 Ec) as (w2' & w3' & -> & X2 & X3 & Hrows).
  assert (Hidx : Forall (fun n => n < 2 ^ 63) index).
  { eapply content_index; [| |exact Ec]; [rewrite Lall; assert (Hc := dc_count _ _ _ _ D); change (2 ^ 63) with 9223372036854775808; lia|].
    revert Hrange. apply Forall_impl. intros e (He & _). exact He. }
  assert (Hhw : writable (ODict hdr)) by (assert (X := dc_header _ _ _ _ D); inversion X as [x Hx|]; subst; [inversion Hx|assumption]).
  assert (Hsz : N.of_nat (List.length l) < 2 ^ 63) by (assert (Hc := dc_count _ _ _ _ D); change (2 ^ 63) with 9223372036854775808; lia).
  set (m0 := xref_header hdr (N.of_nat (List.length l)) (w1, w2', w3') index) in *.
  assert (Hm0 : writable (ODict m0)) by (apply header_writable; auto; lia).
  assert (Hm0f := fun k => header_find hdr (N.of_nat (List.length l)) w1 w2' w3' index k Hhw Hsz ltac:(lia) X2 X3 Hidx). fold m0 in Hm0f.
  assert (Hst0 : storable (OStream m0 enc)).
  { apply st_stream; [exact Hm0| |eapply cd_size; [exact CD|exact Ee]]. intros x Hx. assert (X := dc_header _ _ _ _ D). inversion X as [y Hy|y z _ Hl _]; subst; [inversion Hy|]. apply Hl.
    destruct (writable_parts _ Hm0) as (S1 & K1 & _). destruct (writable_parts _ Hhw) as (S2 & K2 & _). apply sm_find_in in Hx; auto using length_bytes.
    rewrite Hm0f in Hx by exact length_bytes. apply sm_find_in; auto using length_bytes. }
  destruct (recalculate_length_ok _ Hst0) as (stm' & Es' & Hso & Hstd). rewrite Es in Es'. apply Ok_inj in Es'. subst stm'.
  inversion Hso as [x Hx|x m y H1 H2 T1 T2]; subst x; [inversion Hx|]. subst y stm.
  assert (Hmw : writable (ODict m) /\ In (str "Length", OInt (Z.of_nat (List.length enc))) m) by (inversion Hstd as [x Hx|x y Hy Hl]; subst; [inversion Hx|auto]). destruct Hmw as [Hmw Hml].
  assert (Hmf : forall k, all_bytes k -> k <> str "Length" -> sm_find k m = sm_find k m0) by (intros k Hb Hk; eapply same_object_find; eauto).
  assert (Hdec : decode m enc = Ok data).
  { apply (cd_back _ _ _ CD m0 m data enc); [| |exact Ee].
    - apply (cd_same _ _ _ CD (sm_remove (str "DecodeParms") hdr)); [|apply (dc_supported _ _ _ _ D)]. destruct (writable_parts _ Hhw) as (S2 & K2 & _).
      split; rewrite Hm0f by apply str_bytes; rewrite sm_find_remove by (first [exact S2|exact K2|apply str_bytes]); reflexivity.
    - split; apply Hmf; try apply str_bytes; discriminate. }
  exists l2, (N.of_nat (List.length (write_header v ++ body))), m, enc, data, (Z.to_nat w1), (Z.to_nat w2'), (Z.to_nat w3'), index.
  constructor; try assumption; try lia.
  - rewrite Hmf by (first [apply str_bytes|discriminate]). rewrite Hm0f by apply str_bytes.
    destruct (list_eq_dec N.eq_dec (str "W") (str "DecodeParms")); [discriminate|]. destruct (list_eq_dec N.eq_dec (str "W") (str "Index")); [discriminate|].
    destruct (list_eq_dec N.eq_dec (str "W") (str "W")); [|congruence]. rewrite !Z2Nat.id by lia. reflexivity.
  - rewrite Hmf by (first [apply str_bytes|discriminate]). rewrite Hm0f by apply str_bytes.
    destruct (list_eq_dec N.eq_dec (str "Index") (str "DecodeParms")); [discriminate|]. destruct (list_eq_dec N.eq_dec (str "Index") (str "Index")); [reflexivity|congruence].
  - rewrite Hmf by (first [apply str_bytes|discriminate]). rewrite Hm0f by apply str_bytes. destruct (list_eq_dec N.eq_dec (str "Size") (str "DecodeParms")); [discriminate|].
    destruct (list_eq_dec N.eq_dec (str "Size") (str "Index")); [discriminate|]. destruct (list_eq_dec N.eq_dec (str "Size") (str "W")); [discriminate|].
    destruct (list_eq_dec N.eq_dec (str "Size") (str "Size")); [|congruence]. do 2 f_equal. lia.
  - rewrite Hmf by (first [apply str_bytes|discriminate]). rewrite Hm0f by apply str_bytes.
    destruct (list_eq_dec N.eq_dec (str "Prev") (str "DecodeParms")); [discriminate|]. destruct (list_eq_dec N.eq_dec (str "Prev") (str "Index")); [discriminate|].
    destruct (list_eq_dec N.eq_dec (str "Prev") (str "W")); [discriminate|]. destruct (list_eq_dec N.eq_dec (str "Prev") (str "Size")); [discriminate|].
    exact (dc_last _ _ _ _ D).
  - intros k Hk Hn. unfold own_keys in Hn. cbn [In] in Hn. rewrite Hmf by (first [exact Hk|intros X; apply Hn; auto 6]). rewrite Hm0f by exact Hk.
    destruct (list_eq_dec N.eq_dec k (str "DecodeParms")) as [->|_]; [exfalso; apply Hn; auto 7|]. destruct (list_eq_dec N.eq_dec k (str "Index")) as [->|_]; [exfalso; apply Hn; auto 7|].
    destruct (list_eq_dec N.eq_dec k (str "W")) as [->|_]; [exfalso; apply Hn; auto 7|]. destruct (list_eq_dec N.eq_dec k (str "Size")) as [->|_]; [exfalso; apply Hn; auto 7|]. reflexivity.
  - exists body. split; [|reflexivity]. rewrite nat_N_Z. exact Efile.
Qed.

Definition saved_rev (l2 : list (xentry * obj)) (m : header) : revision := {| v_rows := map listed (map fst l2); v_trailer := m; v_self := Some self |}.
Lemma object_from_start : forall (B : list N -> obj -> Prop) file p n g o, starts_at file (Z.of_N p) (write_object n g o) -> B (to_pdf o) o -> Spec.Conforming.object_at B file p n g o.
Proof.
  intros B file p n g o (_ & before & after & Ef & Eb) H.
  exists (to_string_N n), [32], (to_string_N g), [32], [10], (to_pdf o), [10], ([10] ++ after).
  split. { exists before. split; [|lia]. rewrite Ef. unfold write_object. rewrite <- !app_assoc. reflexivity. }
  split; [apply number_written|]. split; [apply number_written|]. split; [exact gap32|]. split; [discriminate|]. split; [exact gap32|]. split; [discriminate|].
  split; [exact gap10|]. split; [exact gap10|]. split; [left; exact white10|]. split; [exact H|]. split; [discriminate|left; exact white10].
Qed.
Lemma in_header : forall m k x, writable (ODict m) -> all_bytes k -> (In (k, x) m <-> sm_find k m = Some x).
Proof. intros m k x H Hk. destruct (writable_parts m H) as (S1 & K1 & _). symmetry. apply sm_find_in; assumption. Qed.

Section Saved.
Variable v : version.
Variable file : bytes.
Variable l2 : list (xentry * obj).
Variable off : N.
Variable m : header.
Variables enc data : bytes.
Variables w1 w2 w3 : nat.
Variable index : list N.
Hypothesis S : saved v file l2 off m enc data w1 w2 w3 index.
Hypothesis Hlen : N.of_nat (List.length file) < 2 ^ 63.
Notation r := (saved_rev l2 m).

Lemma back : forall e2 o2, In (e2, o2) l2 -> exists e o, In (e, o) l /\ was_written file e o e2 o2.
Proof.
  intros e2 o2 Hin. assert (F := sv_written _ _ _ _ _ _ _ _ _ _ _ S). clear - F Hin. revert F. generalize todo. intros td F.
  induction F as [|[a1 a2] [b1 b2] x y P F IH]; [destruct Hin|]. cbn [fst snd] in *. destruct Hin as [X|Hin].
  - apply pair_equal_spec in X. destruct X as [-> ->]. exists a1, a2. split; [left; reflexivity|exact P].
  - destruct (IH Hin) as (e & o & A & B). exists e, o. split; [right; exact A|exact B].
Qed.
Lemma forth : forall e o, In (e, o) l -> exists e2 o2, In (e2, o2) l2 /\ was_written file e o e2 o2.
Proof. intros e o Hin. destruct (Forall2_In _ _ _ _ _ _ (sv_written _ _ _ _ _ _ _ _ _ _ _ S) Hin) as ([e2 o2] & A & B). exists e2, o2. auto. Qed.
Lemma rows_once : NoDup (map fst (v_rows r)).
Proof.
  cbn [saved_rev v_rows]. rewrite map_map. cbn [listed fst]. assert (Hs := sv_sorted _ _ _ _ _ _ _ _ _ _ _ S). revert Hs. generalize (map fst l2). clear. intros t Hs.
  induction Hs as [|x t Hs IH Ha]; [constructor|]. cbn [map]. constructor; [|exact IH].
  intros Hin. apply in_map_iff in Hin. destruct Hin as (y & Ey & Hy). rewrite Forall_forall in Ha. specialize (Ha y Hy). unfold xlt in Ha. lia.
Qed.
Lemma self_row : forall offs o, In ({| xnum := fst self; xgen := snd self; xdata := KUsed offs true |}, o) l -> In (fst self, AtOffset (Z.to_N offs) (snd self)) (v_rows r).
Proof.
  intros offs o Hin. destruct (forth _ _ Hin) as (e2 & o2 & H2 & W). assert (Y := wr_entry _ _ _ _ _ _ _ _ W).
  assert (Z : is_self (Some self) {| xnum := fst self; xgen := snd self; xdata := KUsed offs true |} = true) by (apply self_spec; destruct self; reflexivity).
  rewrite Z in Y. subst e2. cbn [saved_rev v_rows]. apply (in_map fst) in H2. apply (in_map listed) in H2. exact H2.
Qed.
Lemma self_bounds : fst self < 2 ^ 63 /\ snd self <= 65535.
Proof. destruct (dc_self _ _ _ _ D) as (o & offs & H). destruct (dc_entries _ _ _ _ D _ _ H) as (A & B & _). auto. Qed.
Lemma own_start : starts_at file (Z.of_N off) (write_object (fst self) (snd self) (OStream m enc)).
Proof.
  destruct (sv_file _ _ _ _ _ _ _ _ _ _ _ S) as (body & Ef & Eo). split; [lia|]. exists (write_header v ++ body), (write_xref_offset (Z.of_N off)).
  split; [rewrite Ef, <- !app_assoc; reflexivity|]. rewrite Eo. lia.
Qed.
Lemma saved_follows : forall strict offs o, In ({| xnum := fst self; xgen := snd self; xdata := KUsed offs true |}, o) l -> (strict = true -> Z.to_N offs = off) ->
  follows decode file strict v [r].
Proof.
  intros strict offs o Hself Hst. destruct self_bounds as [Bn Bg]. assert (Hw := sv_map _ _ _ _ _ _ _ _ _ _ _ S).
  assert (Hoff : off < 2 ^ 63).
  { destruct own_start as (_ & before & after & Ef & Eb). rewrite Ef, !app_length in Hlen. change (2 ^ 63) with 9223372036854775808 in *. lia. }
  exists off. split; [|split; [|split]].
  - apply hi_oldest; cbn [saved_rev v_trailer].
    + apply (sa_stream decode file strict off (fst self) (snd self) m enc data w1 w2 w3 (Z.of_nat (List.length l)) (map (fun n => OInt (Z.of_N n)) index) (map listed (map fst l2)) (Z.to_N offs)) in Bg; [|
        |exact Bn|exact (sv_dec _ _ _ _ _ _ _ _ _ _ _ S)|apply in_header; [exact Hw|apply str_bytes|exact (sv_W _ _ _ _ _ _ _ _ _ _ _ S)]
        |apply in_header; [exact Hw|apply str_bytes|exact (sv_Size _ _ _ _ _ _ _ _ _ _ _ S)]
        |left; apply in_header; [exact Hw|apply str_bytes|exact (sv_Index _ _ _ _ _ _ _ _ _ _ _ S)]
        |exact (sv_rows _ _ _ _ _ _ _ _ _ _ _ S)|exact rows_once|exact (self_row offs o Hself)|exact Hst].
      * unfold saved_rev. destruct self. exact Bg.
      * apply object_from_start; [exact own_start|]. apply written_stream_text; [exact Hw|exact (sv_length _ _ _ _ _ _ _ _ _ _ _ S)].
    + intros x Hx. apply in_header in Hx; [|exact Hw|apply str_bytes]. rewrite (sv_Prev _ _ _ _ _ _ _ _ _ _ _ S) in Hx. discriminate.
  - destruct (sv_file _ _ _ _ _ _ _ _ _ _ _ S) as (body & Ef & Eo). exists [10]. eexists. split; [left; reflexivity|]. rewrite Ef. unfold write_header. rewrite <- !app_assoc.
    do 2 f_equal. destruct v; reflexivity.
  - destruct (sv_file _ _ _ _ _ _ _ _ _ _ _ S) as (body & Ef & Eo).
    exists (write_header v ++ body ++ to_string_N (fst self) ++ [32] ++ to_string_N (snd self) ++ [32] ++ str "obj" ++ [10] ++ to_pdf (OStream m enc) ++ [10] ++ str "endobj"), 10, [10], (to_string_N off), [10], [10].
    split; [exact white10|]. split; [left; reflexivity|]. split; [apply number_written|]. split; [left; reflexivity|]. split; [constructor; [exact white10|constructor]|]. split.
    + rewrite Ef. unfold write_object, write_xref_offset. replace (to_string_Z (Z.of_N off)) with (to_string_N off) by (unfold to_string_Z; replace (Z.of_N off <? 0)%Z with false by lia; rewrite N2Z.id; reflexivity).
      rewrite <- !app_assoc. reflexivity.
    + assert (H := short_digits 19 off ltac:(lia) ltac:(change (10 ^ N.of_nat 19) with 10000000000000000000; change (2 ^ 63) with 9223372036854775808 in Hoff; lia)). cbn [List.length]. lia.
  - exact Hlen.
Qed.
Lemma saved_start : says_start file off.
Proof.
  destruct (sv_file _ _ _ _ _ _ _ _ _ _ _ S) as (body & Ef & Eo). exists (write_header v ++ body ++ write_object (fst self) (snd self) (OStream m enc)), (to_string_N off). split; [|apply number_written].
  rewrite Ef. unfold write_xref_offset. replace (to_string_Z (Z.of_N off)) with (to_string_N off) by (unfold to_string_Z; replace (Z.of_N off <? 0)%Z with false by lia; rewrite N2Z.id; reflexivity).
  rewrite <- !app_assoc. reflexivity.
Qed.

(** ** what the file means *)
Lemma last_of : forall n q, In (n, q) (v_rows r) -> listed_last [r] n q.
Proof. intros n q H. exists [], r, []. split; [reflexivity|]. split; [exact H|]. intros x q' []. Qed.
Lemma none_of : forall n g, (forall e o, In (e, o) l -> xnum e <> n) -> means decode file [r] n g ONull.
Proof.
  intros n g H. apply me_unknown. intros x q [<-|[]] Hin. cbn [saved_rev v_rows] in Hin. apply in_map_iff in Hin. destruct Hin as (e2 & E & Hin).
  apply in_map_iff in Hin. destruct Hin as ([e2' o2] & <- & Hin). destruct (back _ _ Hin) as (e & o & A & B). apply (H e o A). rewrite <- (wr_num _ _ _ _ _ _ _ _ B).
  unfold listed in E. apply pair_equal_spec in E. apply E.
Qed.
Lemma row_for : forall e o e2 o2, In (e2, o2) l2 -> was_written file e o e2 o2 -> In (xnum e, row_of_entry e2) (v_rows r).
Proof.
  intros e o e2 o2 H W. cbn [saved_rev v_rows]. apply (in_map fst) in H. apply (in_map listed) in H. cbn [fst] in H. unfold listed in H at 1. rewrite (wr_num _ _ _ _ _ _ _ _ W) in H. exact H.
Qed.
Lemma stored_body : forall o, stored o -> any_body decode file [r] (to_pdf o) o.
Proof.
  intros o H. destruct (Written.stored_written o H) as [A|A]; [left; exact A|]. right. exists (fun _ _ => None). split; [discriminate|exact A].
Qed.
Lemma used_place : forall e o q u, In (e, o) l -> (xnum e, xgen e) <> self -> xdata e = KUsed q u ->
  exists p o', In (xnum e, AtOffset p (xgen e)) (v_rows r) /\ starts_at file (Z.of_N p) (write_object (xnum e) (xgen e) o') /\ stored o' /\
    exists o1, refilled encode todo e o o1 /\ same_object o1 o'.
Proof.
  intros e o q u Hin Hns Ed. destruct (forth e o Hin) as (e2 & o2 & H2 & W). assert (Y := wr_entry _ _ _ _ _ _ _ _ W).
  destruct (is_self (Some self) e) eqn:X; [apply self_spec in X; contradiction|]. rewrite Ed in Y. destruct Y as (p & Ep & Hp).
  assert (Z := wr_obj _ _ _ _ _ _ _ _ W). rewrite Ed in Z. destruct Z as (o1 & Z1 & Z2 & Z3). exists p, o2. split; [|split; [exact Hp|split; [exact Z3|exists o1; auto]]].
  assert (R := row_for _ _ _ _ H2 W). unfold row_of_entry in R. rewrite Ep, N2Z.id, (wr_gen _ _ _ _ _ _ _ _ W) in R. exact R.
Qed.
Lemma used_means : forall e o q u, In (e, o) l -> (xnum e, xgen e) <> self -> xdata e = KUsed q u ->
  (exists o', means decode file [r] (xnum e) (xgen e) o' /\ exists o1, refilled encode todo e o o1 /\ same_object o1 o') /\
  forall g, g <> xgen e -> means decode file [r] (xnum e) g ONull.
Proof.
  intros e o q u Hin Hns Ed. destruct (used_place e o q u Hin Hns Ed) as (p & o' & R & Hp & Hs & Ho). split.
  - exists o'. split; [|exact Ho]. apply (me_offset _ _ _ _ _ p); [apply last_of; exact R|]. apply object_from_start; [exact Hp|apply stored_body; exact Hs].
  - intros g Hg. apply (me_other _ _ _ _ _ p (xgen e)); [apply last_of; exact R|congruence].
Qed.
Lemma free_means : forall e o next g, In (e, o) l -> (xnum e, xgen e) <> self -> xdata e = KFree next -> means decode file [r] (xnum e) g ONull.
Proof.
  intros e o next g Hin Hns Ed. destruct (forth e o Hin) as (e2 & o2 & H2 & W). assert (Y := wr_entry _ _ _ _ _ _ _ _ W).
  assert (E : e2 = e) by (destruct (is_self (Some self) e); [exact Y|rewrite Ed in Y; exact Y]). subst e2. assert (R := row_for _ _ _ _ H2 W). unfold row_of_entry in R. rewrite Ed in R.
  apply (me_deleted _ _ _ _ _ (xgen e)). apply last_of. exact R.
Qed.
Lemma packed_row : forall e o k i, In (e, o) l -> xdata e = KComp k i -> In (xnum e, Packed k i) (v_rows r).
Proof.
  intros e o k i Hin Ed. destruct (forth e o Hin) as (e2 & o2 & H2 & W). assert (Y := wr_entry _ _ _ _ _ _ _ _ W).
  assert (E : e2 = e) by (destruct (is_self (Some self) e); [exact Y|rewrite Ed in Y; exact Y]). subst e2. assert (R := row_for _ _ _ _ H2 W). unfold row_of_entry in R. rewrite Ed in R. exact R.
Qed.
(** an object stream in the file *)
Lemma stream_place : forall k, is_object_stream l k -> exists p m1 d1 m2 d2 body,
  In (k, AtOffset p 0) (v_rows r) /\ starts_at file (Z.of_N p) (write_object k 0 (OStream m2 d2)) /\ stored (OStream m2 d2) /\
  StreamFile.in_use l k 0 (OStream m1 d1) /\ decode m2 d2 = Ok body /\ holds_objects m2 body (map member_of (sort_by_index (part k))) /\
  forall x, all_bytes x -> ~ In x [str "Length"; str "N"; str "First"] -> sm_find x m2 = sm_find x m1.
Proof.
  intros k Hk. destruct Hk as (ec & oc & ic & Hc & Edc). destruct (dc_entries _ _ _ _ D _ _ Hc) as (_ & _ & C). rewrite Edc in C.
  destruct C as (_ & _ & _ & Cs & m1 & d1 & (offu & Hu) & Hsup).
  destruct (used_place _ _ offu true Hu) as (p & o2 & R & Hp & Hst & o' & Hr & Hso); cbn [xnum xgen xdata] in *; [intros X; apply (f_equal fst) in X; cbn [fst] in X; congruence|reflexivity|].
  assert (Hpart : exists x, In x (part k)) by (apply (object_stream_part (fun _ _ => Undef)); exists ec, oc, ic; auto).
  destruct Hr as [(_ & Hno)|(n & first & body & m' & d' & b & off' & u' & R1 & _ & _ & R4 & R5 & ->)].
  { exfalso. apply (Hno (rebuild_object_stream (part k))). cbn [xnum]. apply (todo_in (fun _ _ => Undef)). auto. }
  assert (E1 : m' = m1 /\ d' = d1) by (inversion R4; auto). destruct E1 as [-> ->]. cbn [xnum] in R1. apply (todo_in (fun _ _ => Undef)) in R1. destruct R1 as (_ & Er). symmetry in Er.
  destruct (part_size supported (fun _ _ => Undef) self hdr l D _ _ _ _ Er Hpart) as (S1 & S2 & S3).
  destruct (dc_entries _ _ _ _ D _ _ Hu) as (_ & _ & _ & Hstor & _). inversion Hstor as [x Hx|x y Hw Hl Hd]; subst; [inversion Hx|].
  assert (W := set_counts_writable n first m1 S1 S2 Hw).
  inversion Hso as [x Hx|x m2 y H1 H2]; subst; [inversion Hx|]. assert (W2 : writable (ODict m2)) by (inversion Hst as [x Hx|x y Hy _]; subst; [inversion Hx|exact Hy]).
  assert (Hf : forall k', all_bytes k' -> k' <> str "Length" -> sm_find k' m2 = sm_find k' (set_counts n first m1)) by (intros k' Hb Hne; eapply same_object_find; eauto).
  assert (Hne : part k <> []) by (destruct Hpart as (x & Hx); intros E; rewrite E in Hx; destruct Hx).
  exists p, m1, d1, m2, b, body. split; [exact R|]. split; [exact Hp|]. split; [exact Hst|]. split; [exists offu; exact Hu|]. split; [|split].
  - apply (cd_back _ _ _ CD (set_counts n first m1) m2 body b); [| |exact R5].
    + apply (cd_same _ _ _ CD m1); [|exact Hsup]. split; rewrite counts_find by (auto; apply str_bytes); reflexivity.
    + split; apply Hf; try apply str_bytes; discriminate.
  - assert (Hok := part_ok supported (fun _ _ => Undef) self hdr l D k). assert (Hnd := part_nodup supported self hdr l D k).
    apply (rebuilt_follows (part k) n first body m2 Hne Hok Hnd Er S3); (apply in_header; [exact W2|apply str_bytes|]); rewrite Hf by (first [apply str_bytes|discriminate]); rewrite counts_find by (auto; apply str_bytes).
    + destruct (list_eq_dec N.eq_dec (str "First") (str "First")); [reflexivity|congruence].
    + destruct (list_eq_dec N.eq_dec (str "N") (str "First")); [discriminate|]. destruct (list_eq_dec N.eq_dec (str "N") (str "N")); [reflexivity|congruence].
  - intros x Hx Hn. cbn [In] in Hn. rewrite Hf by (first [exact Hx|intros X; apply Hn; auto]). rewrite counts_find by assumption.
    destruct (list_eq_dec N.eq_dec x (str "First")) as [->|]; [exfalso; apply Hn; auto|]. destruct (list_eq_dec N.eq_dec x (str "N")) as [->|]; [exfalso; apply Hn; auto|]. reflexivity.
Qed.
Lemma stream_there : forall k, is_object_stream l k -> Spec.Compressed.object_stream decode file [r] k (map member_of (sort_by_index (part k))).
Proof.
  intros k Hk. destruct (stream_place k Hk) as (p & m1 & d1 & m2 & d2 & body & R & Hp & Hst & _ & Hd & Hh & _).
  exists p, (fun _ _ => None), m2, d2, body. split; [apply last_of; exact R|]. split; [discriminate|]. split; [|split; [exact Hd|exact Hh]].
  apply object_from_start; [exact Hp|]. inversion Hst as [x Hx|x y H1 H2]; subst; [inversion Hx|]. apply written_stream_text; assumption.
Qed.
Lemma ordered_part : forall k members, (forall e o i, In (e, o) l /\ xdata e = KComp k i <-> nth_error members (N.to_nat i) = Some (e, o)) ->
  forall e o i, In (e, o) l -> xdata e = KComp k i -> nth_error (map member_of (sort_by_index (part k))) (N.to_nat i) = Some (xnum e, o).
Proof.
  intros k members Hm. set (comp := fun p : xentry * obj => {| ce_num := xnum (fst p); ce_stream := k; ce_index := match xdata (fst p) with KComp _ i => i | _ => 0 end; ce_obj := snd p |}).
  assert (At : forall j e o, nth_error members j = Some (e, o) -> In (e, o) l /\ xdata e = KComp k (N.of_nat j)).
  { intros j e o Hj. apply (Hm e o (N.of_nat j)). rewrite Nat2N.id. exact Hj. }
  assert (E : sort_by_index (part k) = map comp members).
  { apply (sorted_unique _ by_index).
    - apply sort_sorted.
    - assert (G : forall ms j, (forall i e o, nth_error ms i = Some (e, o) -> xdata e = KComp k (N.of_nat (j + i))) -> StronglySorted by_index (map comp ms)).
      { induction ms as [|[e o] ms IH]; intros j Hms; cbn [map]; constructor.
        - apply (IH (Datatypes.S j)). intros i e' o' Hi. replace (Datatypes.S j + i)%nat with (j + Datatypes.S i)%nat by lia. apply (Hms (Datatypes.S i) e' o'). exact Hi.
        - apply Forall_forall. intros x Hx. apply in_map_iff in Hx. destruct Hx as ([e' o'] & <- & Hx). apply In_nth_error in Hx. destruct Hx as (i & Hi).
          assert (A1 := Hms 0%nat e o eq_refl). assert (A2 := Hms (Datatypes.S i) e' o' Hi). unfold by_index, comp. cbn [fst ce_index]. rewrite A1, A2. lia. }
      apply (G members 0%nat). intros i e o Hi. apply (At i e o Hi).
    - etransitivity; [apply sort_perm|]. apply NoDup_Permutation.
      + apply (NoDup_map_inv ce_num). exact (part_nodup supported self hdr l D k).
      + apply (NoDup_map_inv ce_index). rewrite map_map. apply (NoDup_nth_error). intros i j Hi Hj.
        assert (Hi2 : (i < List.length members)%nat) by (rewrite map_length in Hi; exact Hi).
        destruct (nth_error members i) as [[e o]|] eqn:Ei; [|apply nth_error_None in Ei; lia].
        rewrite (map_nth_error _ _ _ Ei) in Hj. cbn [comp ce_index fst] in Hj. destruct (nth_error members j) as [[e' o']|] eqn:Ej.
        * rewrite (map_nth_error _ _ _ Ej) in Hj. cbn [comp ce_index fst] in Hj. destruct (At _ _ _ Ei) as [_ A1]. destruct (At _ _ _ Ej) as [_ A2]. rewrite A1, A2 in Hj.
          assert (X : N.of_nat i = N.of_nat j) by congruence. lia.
        * exfalso. apply nth_error_None in Ej. assert (X : nth_error (map (fun x => ce_index (comp x)) members) j = None) by (apply nth_error_None; rewrite map_length; exact Ej).
          assert (Hj' := eq_trans Hj X). discriminate.
      + intros c. rewrite (part_in (fun _ _ => Undef)), compressed_in, in_map_iff. split.
        * intros ((e & o & A & B & C & ->) & <-). exists (e, ce_obj c). split; [unfold comp; cbn [fst snd]; rewrite B, C; destruct c; reflexivity|].
          apply (nth_error_In members (N.to_nat (ce_index c))). apply Hm. auto.
        * intros ([e o] & <- & Hin). apply In_nth_error in Hin. destruct Hin as (j & Hj). destruct (At _ _ _ Hj) as [A B]. split; [|reflexivity].
          exists e, o. unfold comp. cbn [ce_stream ce_index ce_num ce_obj fst snd]. rewrite B. auto.
    - intros x y Hx Hy Rxy Ryx. apply (Permutation_in _ (sort_perm _)) in Hx. apply (Permutation_in _ (sort_perm _)) in Hy.
      apply (part_in (fun _ _ => Undef)) in Hx. apply (part_in (fun _ _ => Undef)) in Hy. destruct Hx as [Hx Kx]. destruct Hy as [Hy Ky]. apply compressed_in in Hx. apply compressed_in in Hy.
      destruct Hx as (ex & ox & Ax & Bx & Cx & ->). destruct Hy as (ey & oy & Ay & By & Cy & ->). unfold by_index in *.
      assert (Ei : ce_index x = ce_index y) by lia. rewrite Kx in Bx. rewrite Ky in By. assert (P := proj1 (Hm _ _ _) (conj Ax Bx)). assert (Q := proj1 (Hm _ _ _) (conj Ay By)). rewrite Ei, Q in P.
      assert (E2 := f_equal (option_map fst) P). assert (E3 := f_equal (option_map snd) P). cbn [option_map fst snd] in E2, E3. destruct x as [x1 x2 x3 x4], y as [y1 y2 y3 y4]; cbn [ce_num ce_stream ce_index ce_obj] in *. congruence. }
  intros e o i Hin Ed. rewrite E, map_map. exact (map_nth_error (fun x => member_of (comp x)) (N.to_nat i) members (proj1 (Hm e o i) (conj Hin Ed))).
Qed.
Lemma packed_means : indexes_are_places l -> forall e o k i, In (e, o) l -> xdata e = KComp k i ->
  means decode file [r] (xnum e) 0 o /\ forall g, g <> 0 -> means decode file [r] (xnum e) g ONull.
Proof.
  intros Hp e o k i Hin Ed. assert (R := packed_row e o k i Hin Ed). split.
  - apply me_packed; [reflexivity|]. exists k, i, (map member_of (sort_by_index (part k))). split; [apply last_of; exact R|]. split; [apply stream_there; exists e, o, i; auto|].
    destruct (Hp k) as (members & Hm). exact (ordered_part k members Hm e o i Hin Ed).
  - intros g Hg. apply (me_not_packed _ _ _ _ _ k i); [apply last_of; exact R|exact Hg].
Qed.
Lemma stream_means : forall k, is_object_stream l k -> exists m1 d1 m2 d2, StreamFile.in_use l k 0 (OStream m1 d1) /\ means decode file [r] k 0 (OStream m2 d2) /\
  forall x, all_bytes x -> ~ In x [str "Length"; str "N"; str "First"] -> sm_find x m2 = sm_find x m1.
Proof.
  intros k Hk. destruct (stream_place k Hk) as (p & m1 & d1 & m2 & d2 & body & R & Hp & Hst & Hu & Hd & Hh & Hx). exists m1, d1, m2, d2. split; [exact Hu|]. split; [|exact Hx].
  apply (me_offset _ _ _ _ _ p); [apply last_of; exact R|]. apply object_from_start; [exact Hp|apply stored_body; exact Hst].
Qed.
Lemma plain_means : forall e o q u, In (e, o) l -> (xnum e, xgen e) <> self -> xdata e = KUsed q u -> ~ is_object_stream l (xnum e) ->
  exists o', means decode file [r] (xnum e) (xgen e) o' /\ same_object o o'.
Proof.
  intros e o q u Hin Hns Ed Hn. destruct (used_means e o q u Hin Hns Ed) as [(o' & M & o1 & Hr & Hs) _]. exists o'. split; [exact M|].
  destruct Hr as [(-> & _)|(n & first & bd & m' & d' & b & q' & u' & Y1 & _)]; [exact Hs|]. exfalso. apply Hn. apply (object_stream_part (fun _ _ => Undef)). apply (todo_in (fun _ _ => Undef)) in Y1. apply Y1.
Qed.

(** ** there is no other way to read the file *)
Lemma entry_row_only : forall k q q' e, entry_like k q e -> entry_like k q' e -> q = q'.
Proof.
  intros k q q' e H H'. destruct H as [_ H]. destruct H' as [_ H'].
  destruct q as [a b|b|a b|a], q' as [c d|d|c d|c]; try contradiction; destruct H as [H1 H2]; destruct H' as [H3 H4];
    try (destruct H2 as (y & H2)); try (destruct H4 as (z & H4)); rewrite H2 in H4; try discriminate H4.
  - assert (E : Z.of_N a = Z.of_N c) by congruence. f_equal; [lia|congruence].
  - congruence.
  - congruence.
Qed.
Lemma saved_found : last_xref_offset file = Ok (Z.of_N off).
Proof.
  destruct (sv_file _ _ _ _ _ _ _ _ _ _ _ S) as (body & Ef & Eo). assert (B := own_start). destruct B as (_ & before & after & Ef2 & Eb2).
  rewrite Ef. replace (write_header v ++ body ++ write_object (fst self) (snd self) (OStream m enc) ++ write_xref_offset (Z.of_N off))
    with ((write_header v ++ body ++ write_object (fst self) (snd self) (OStream m enc)) ++ write_xref_offset (Z.of_N off) ++ []) by (rewrite app_nil_r, <- !app_assoc; reflexivity).
  apply last_offset_found; [|constructor|cbn; lia|].
  - right. unfold write_object.
    eexists (write_header v ++ body ++ to_string_N (fst self) ++ [32] ++ to_string_N (snd self) ++ [32] ++ str "obj" ++ [10] ++ to_pdf (OStream m enc) ++ [10] ++ str "endobj"), 10.
    split; [rewrite <- !app_assoc; reflexivity|exact white10].
  - rewrite Ef2, !app_length in Hlen. change (2 ^ 63) with 9223372036854775808 in Hlen. change (2 ^ 63)%Z with 9223372036854775808%Z. lia.
Qed.
Lemma own_object : Spec.Conforming.object_at (stream_text (fun _ _ => None)) file off (fst self) (snd self) (OStream m enc).
Proof.
  apply object_from_start; [exact own_start|]. apply written_stream_text; [exact (sv_map _ _ _ _ _ _ _ _ _ _ _ S)|exact (sv_length _ _ _ _ _ _ _ _ _ _ _ S)].
Qed.
Lemma same_section : forall strict v' revs, follows decode file strict v' revs -> exists rows,
  revs = [{| v_rows := rows; v_trailer := m; v_self := Some self |}] /\ (exists own, In (fst self, AtOffset own (snd self)) rows /\ (strict = true -> own = off)) /\
  forall k q, In (k, q) rows <-> In (k, q) (v_rows r).
Proof.
  intros strict v' revs H. destruct self_bounds as [Bn Bg]. assert (Hw := sv_map _ _ _ _ _ _ _ _ _ _ _ S). destruct (writable_parts _ Hw) as (M1 & M2 & _).
  destruct (dc_self _ _ _ _ D) as (os & offs & Hself).
  destruct (file_start _ _ _ _ H) as (off1 & Hh & _ & E1). rewrite saved_found in E1. apply Ok_inj, N2Z.inj in E1. subst off1.
  assert (In_find : forall k x, all_bytes k -> In (k, x) m -> sm_find k m = Some x) by (intros k x Hk Hx; apply sm_find_in; assumption).
  assert (Ours := stream_section decode file off (fst self) (snd self) m enc data w1 w2 w3 (Z.of_nat (List.length l)) (map (fun n => OInt (Z.of_N n)) index) (map listed (map fst l2)) (Z.to_N offs) []
    own_object Bn Bg (sv_dec _ _ _ _ _ _ _ _ _ _ _ S) ltac:(apply in_header; [exact Hw|apply str_bytes|exact (sv_W _ _ _ _ _ _ _ _ _ _ _ S)])
    ltac:(apply in_header; [exact Hw|apply str_bytes|exact (sv_Size _ _ _ _ _ _ _ _ _ _ _ S)]) ltac:(left; apply in_header; [exact Hw|apply str_bytes|exact (sv_Index _ _ _ _ _ _ _ _ _ _ _ S)])
    (sv_rows _ _ _ _ _ _ _ _ _ _ _ S) rows_once (self_row offs os Hself) (sv_type _ _ _ _ _ _ _ _ _ _ _ S)). destruct Ours as [_ Ours].
  destruct Ours as (s & Es & Ls).
  { apply Forall_forall. intros q Hq. apply in_map_iff in Hq. destruct Hq as ([k q'] & <- & Hq). apply in_map_iff in Hq. destruct Hq as (e & E & _). unfold listed in E. apply pair_equal_spec in E.
    destruct E as [_ <-]. unfold row_of_entry. cbn [snd]. destruct (xdata e); intros []. }
  destruct (object_read_section (fun _ _ => None) opening_length file off (fst self) (snd self) m enc own_object ltac:(discriminate) Bn Bg) as [(rest & Er) _].
  assert (Hs1 : exists r1 tl, revs = r1 :: tl /\ section_at decode file strict off r1 /\ (tl = [] \/ exists prev, In (str "Prev", OInt (Z.of_N prev)) (v_trailer r1))).
  { inversion Hh as [? r1 A B|? r1 prev older A B C]; subst; exists r1; eexists; (split; [reflexivity|]); (split; [exact A|]); [left; reflexivity|right; exists prev; exact B]. }
  destruct Hs1 as (r1 & tl & -> & Hsec & Htl). destruct Hsec as [text r0 g more Hat Hs Hg Hm Hx|n g m' data' body' x1 x2 x3 size index' rows own Hat Hn Hg Hdec HW HS HI Hsub Hd Hrow Hown].
  { exfalso. assert (X := section_read decode file off text r0 g more [] Hat Hs Hg Hm). unfold read_section in X. rewrite (heading_peek _ _ _ Er) in X. cbn [rbind] in X.
    change (ttype_eqb TyInt TyXref) with false in X. cbv iota in X. rewrite Er in X. cbn [rbind] in X. unfold parse_stream_section in X.
    apply rbind_ok in X. destruct X as (zw & _ & X). apply rbind_ok in X. destruct X as (zs & _ & X). apply rbind_ok in X. destruct X as (zi & _ & X). apply rbind_ok in X. destruct X as (bd & _ & X).
    apply rbind_ok in X. destruct X as (es & _ & X). cbv zeta in X. assert (K : forall c' : list section, Ok (c', {| s_kind := SStream; s_entries := es; s_hybrid := None; s_trailer := m |}) <> Ok ([], table_of r0)).
    { intros c' Y. apply Ok_inj in Y. apply (f_equal (fun z => s_kind (snd z))) in Y. discriminate Y. }
    destruct (names_self (fst self) (snd self) es); [exact (K _ X)|]. destruct (chain_entry (fst self) (snd self) _) as [e|]; [|discriminate X]. destruct (xdata e); discriminate X. }
  destruct (object_read_section (fun _ _ => None) opening_length file off n g m' data' Hat ltac:(discriminate) Hn Hg) as [(rest' & Er') _]. rewrite Er in Er'. apply Ok_inj in Er'.
  assert (En := f_equal (fun z => fst (fst (fst z))) Er'). assert (Eg := f_equal (fun z => snd (fst (fst z))) Er'). assert (Eo := f_equal (fun z => snd (fst z)) Er'). cbn [fst snd] in En, Eg, Eo. clear Er'. subst n g.
  assert (Em : m' = m /\ data' = enc) by (inversion Eo; auto). destruct Em as [-> ->]. clear Eo. rewrite (sv_dec _ _ _ _ _ _ _ _ _ _ _ S) in Hdec. apply Ok_inj in Hdec. subst body'.
  assert (EW := In_find _ _ (str_bytes _) HW). rewrite (sv_W _ _ _ _ _ _ _ _ _ _ _ S) in EW.
  assert (Ex1 : x1 = w1) by (assert (X := f_equal (fun z => match z with Some (OArr (OInt a :: _)) => a | _ => 0%Z end) EW); cbv beta iota in X; lia). subst x1.
  destruct (stream_section decode file off (fst self) (snd self) m enc data w1 x2 x3 size index' rows own [] Hat Hn Hg (sv_dec _ _ _ _ _ _ _ _ _ _ _ S) HW HS HI Hsub Hd Hrow (sv_type _ _ _ _ _ _ _ _ _ _ _ S)) as [T1 T2].
  assert (Ls' : section_like {| v_rows := rows; v_trailer := m; v_self := Some (fst self, snd self) |} s).
  { destruct (Forall_Exists_dec (fun q => ~ reserved q) (fun q => match reserved_decide q with left a => right (fun b => b a) | right b => left b end) (map snd rows)) as [F|F].
    - destruct (T2 F) as (s' & Es' & Ls'). rewrite Es in Es'. apply Ok_inj in Es'. apply (f_equal snd) in Es'. cbn [snd] in Es'. subst s'. exact Ls'.
    - exfalso. rewrite T1 in Es; [discriminate Es|]. clear - F. induction F as [q t F|q t F IH]; [left; destruct (reserved_decide q); [assumption|contradiction]|right; exact IH]. }
  exists rows. split; [|split].
  - destruct Htl as [->|(prev & Hp)]; [destruct self; reflexivity|]. exfalso. cbn [v_trailer] in Hp. apply In_find in Hp; [|apply str_bytes]. rewrite (sv_Prev _ _ _ _ _ _ _ _ _ _ _ S) in Hp. discriminate.
  - exists own. auto.
  - assert (G : forall ra rb, section_like ra s -> section_like rb s -> forall k q, In (k, q) (v_rows ra) -> In (k, q) (v_rows rb)).
    { intros ra rb La Lb k q Hin. destruct (sl_listed _ _ La k q Hin) as (e & Ee & He). destruct (in_dec N.eq_dec k (map fst (v_rows rb))) as [Hk|Hk].
      - apply in_map_iff in Hk. destruct Hk as ([k' q'] & Ek & Hk). cbn [fst] in Ek. subst k'. destruct (sl_listed _ _ Lb k q' Hk) as (e' & Ee' & He'). rewrite Ee in Ee'. assert (X : e' = e) by congruence. subst e'.
        assert (q' = q); [|subst q'; exact Hk]. exact (entry_row_only _ _ _ _ He' He).
      - exfalso. assert (X := sl_others _ _ Lb k ltac:(intros q' Hq; apply Hk; apply (in_map fst) in Hq; exact Hq)). congruence. }
    intros k q. split; [apply (G _ _ Ls' Ls)|apply (G _ _ Ls Ls')].
Qed.
Lemma own_row_only : forall offs o, In ({| xnum := fst self; xgen := snd self; xdata := KUsed offs true |}, o) l -> (0 <= offs)%Z ->
  ((exists v' revs, follows_standard decode file v' revs) <-> offs = Z.of_N off).
Proof.
  intros offs o Hin Hpos. split.
  - intros (v' & revs & H). destruct (same_section true v' revs H) as (rows & -> & (own & Ho & Eo) & Hsame). specialize (Eo eq_refl). subst own.
    apply Hsame in Ho. assert (Hs := self_row offs o Hin). assert (Hd := rows_once).
    assert (X : AtOffset off (snd self) = AtOffset (Z.to_N offs) (snd self)).
    { clear - Ho Hs Hd. induction (v_rows r) as [|[k q] t IH]; [destruct Ho|]. cbn [map fst] in Hd. inversion Hd as [|? ? Hk Hd']; subst.
      destruct Ho as [Ho|Ho], Hs as [Hs|Hs]; [congruence|exfalso; apply Hk|exfalso; apply Hk|exact (IH Ho Hs Hd')].
      - apply (f_equal fst) in Ho. cbn [fst] in Ho. subst k. apply (in_map fst) in Hs. exact Hs.
      - apply (f_equal fst) in Hs. cbn [fst] in Hs. subst k. apply (in_map fst) in Ho. exact Ho. }
    assert (off = Z.to_N offs) by congruence. lia.
  - intros E. exists v, [r]. apply (saved_follows true offs o Hin). intros _. lia.
Qed.
Lemma filter_part : forall k, N.of_nat (List.length (part k)) = members_count l k.
Proof.
  intros k. unfold members_count, entries_of_stream, compressed. clear. induction l as [|[e o] t IH]; [reflexivity|]. cbn [flat_map filter fst]. unfold compressed_of at 1. cbn [fst snd].
  destruct (xdata e) as [|q u|s i]; cbn [app filter ce_stream]; try exact IH. destruct (s =? k); cbn [List.length]; lia.
Qed.
Lemma index_listed : forall strict e o k i, In (e, o) l -> xdata e = KComp k i ->
  forall v' revs, follows decode file strict v' revs -> listed_last revs (xnum e) (Packed k i).
Proof.
  intros strict e o k i Hin Ed v' revs Hf. destruct (same_section strict v' revs Hf) as (rows & -> & _ & Hsame).
  eexists [], _, []. split; [reflexivity|]. split; [cbn [v_rows]; apply Hsame; apply (packed_row e o); assumption|intros x q []].
Qed.
Lemma index_beyond : forall strict e o k i, In (e, o) l -> xdata e = KComp k i -> members_count l k <= i ->
  forall v' revs x, follows decode file strict v' revs -> ~ means decode file revs (xnum e) 0 x.
Proof.
  intros strict e o k i Hin Ed Hi v' revs x Hf Hm. destruct (same_section strict v' revs Hf) as (rows & -> & _ & Hsame).
  assert (R := packed_row e o k i Hin Ed). assert (Hd := rows_once).
  assert (Once : forall n q q', In (n, q) (v_rows r) -> In (n, q') (v_rows r) -> q = q').
  { clear - Hd. intros n q q' Ho Hs. induction (v_rows r) as [|[a b] t IH]; [destruct Ho|]. cbn [map fst] in Hd. inversion Hd as [|? ? Hk Hd']; subst.
    destruct Ho as [Ho|Ho], Hs as [Hs|Hs]; [congruence|exfalso; apply Hk|exfalso; apply Hk|exact (IH Hd' Ho Hs)].
    - apply (f_equal fst) in Ho. cbn [fst] in Ho. subst a. apply (in_map fst) in Hs. exact Hs.
    - apply (f_equal fst) in Hs. cbn [fst] in Hs. subst a. apply (in_map fst) in Ho. exact Ho. }
  assert (Last : forall n q, listed_last [{| v_rows := rows; v_trailer := m; v_self := Some self |}] n q -> In (n, q) (v_rows r)).
  { intros n q (newer & s & older & E & Hq & _). destruct newer as [|a newer]; [|destruct newer; discriminate E]. cbn [app] in E. assert (X := f_equal (fun z => match z with y :: _ => v_rows y | [] => [] end) E).
    cbn [v_rows] in X. apply Hsame. rewrite X. exact Hq. }
  assert (P : packed_object decode file [{| v_rows := rows; v_trailer := m; v_self := Some self |}] (xnum e) x).
  { destruct Hm as [offset o' A B|o' _ A|offset g' A B|s' i' A B|g' A|t A|A].
    - apply Last in A. assert (X := Once _ _ _ R A). discriminate.
    - exact A.
    - apply Last in A. assert (X := Once _ _ _ R A). discriminate.
    - congruence.
    - apply Last in A. assert (X := Once _ _ _ R A). discriminate.
    - apply Last in A. assert (X := Once _ _ _ R A). discriminate.
    - exfalso. apply (A _ (Packed k i) (or_introl eq_refl)). cbn [v_rows]. apply Hsame. exact R. }
  destruct P as (k' & i' & members & A & Hs & Hnth). apply Last in A. assert (X := Once _ _ _ R A). assert (Ek : k' = k /\ i' = i) by (inversion X; auto). destruct Ek as [-> ->]. clear X.
  assert (Hk : is_object_stream l k) by (exists e, o, i; auto).
  destruct (stream_place k Hk) as (p & m1 & d1 & m2 & d2 & body & Rp & Hp & Hst & (offu & Hu) & Hdec & Hh & _).
  destruct Hs as (p' & len & m' & d' & body' & A' & Hlen' & Hat & Hdec' & Hh'). apply Last in A'. assert (X := Once _ _ _ Rp A'). assert (Ep : p' = p) by (inversion X; auto). subst p'. clear X.
  destruct (dc_entries _ _ _ _ D _ _ Hu) as (Bk & _). cbn [xnum] in Bk.
  assert (O1 : Spec.Conforming.object_at (stream_text (fun _ _ => None)) file p k 0 (OStream m2 d2)).
  { apply object_from_start; [exact Hp|]. inversion Hst as [y Hy|y z H1 H2]; subst; [inversion Hy|]. apply written_stream_text; assumption. }
  set (rl := fun a b => match len a b with Some z => Ok z | None => Undef end).
  destruct (object_read_section (fun _ _ => None) rl file p k 0 m2 d2 O1 ltac:(discriminate) Bk ltac:(lia)) as [_ L1].
  destruct (object_read_section len rl file p k 0 m' d' Hat ltac:(intros a b z Hz; unfold rl; rewrite Hz; reflexivity) Bk ltac:(lia)) as [_ L2].
  rewrite L1 in L2. apply Ok_inj in L2. apply (f_equal snd) in L2. cbn [snd] in L2. assert (Em : m' = m2 /\ d' = d2) by (inversion L2; auto). destruct Em as [-> ->].
  destruct Hh as (_ & _ & _ & _ & _ & _ & HN & _). destruct Hh' as (_ & _ & _ & _ & _ & _ & HN' & _).
  assert (W2 : writable (ODict m2)) by (inversion Hst as [y Hy|y z Hy _]; subst; [inversion Hy|exact Hy]).
  apply in_header in HN; [|exact W2|apply str_bytes]. apply in_header in HN'; [|exact W2|apply str_bytes]. rewrite HN in HN'.
  assert (EN : List.length members = List.length (part k)).
  { assert (X := f_equal (fun z => match z with Some (OInt a) => a | _ => 0%Z end) HN'). cbv beta iota in X. rewrite map_length, (Permutation_length (sort_perm _)) in X. lia. }
  assert (Y := nth_error_Some members (N.to_nat i)). rewrite Hnth in Y. assert (Y' := proj1 Y ltac:(discriminate)). assert (C := filter_part k). lia.
Qed.
End Saved.
End Main.

(** Writing a file with one table section and opening it again. *)
From Coq Require Import List NArith ZArith Bool Lia String Sorted.
From Verif.Model Require Import Base Char Numbers SMap Object Token Parser Arith Xref StartXref Header FileWrite.
From Verif.Spec Require Import Strings Grammar Xref FileWrite.
From Verif.Proof Require Import Tac Numbers Strings Token SMap Parser Writer StreamObj Arith Xref StartXref.
Import ListNotations.
Local Open Scope N_scope.

(** ** more fuel gives the same result *)
Section Mono.
Variable d : dictionary.
Variable rl : N -> N -> res Z.
Lemma parse_obj_eq : forall f s, parse_obj d rl (S f) s =
      do '(tk, rest) <- read_token_skip d s;;
      match fst tk with
      | TyDictBegin => do '(l, r) <- parse_dict d rl f rest [];; read_stream_tail d rl l r
      | TyInt => do z <- stoll (snd tk);; read_reference d z rest
      | TyArrayBegin => do '(l, r) <- parse_array d rl f rest;; Ok (OArr l, r)
      | TyName => Ok (OName (snd tk), rest)
      | TyHex => do v <- hex_decode (snd tk);; Ok (OHex v, rest)
      | TyLit => do v <- literal_decode (snd tk);; Ok (OLit v, rest)
      | TyReal => do o <- create_real (snd tk);; Ok (o, rest)
      | TyTrue => Ok (OBool true, rest)
      | TyFalse => Ok (OBool false, rest)
      | TyNull => Ok (ONull, rest)
      | _ => Throw EParse
      end.
Proof. reflexivity. Qed.
Lemma parse_array_eq : forall f s, parse_array d rl (S f) s =
      do '(tk, rest) <- read_token_skip d s;;
      if ttype_eqb (fst tk) TyArrayEnd then Ok ([], rest)
      else
        do '(o, r1) <- parse_obj d rl f s;;
        if is_stream o then Throw EConversion
        else
          do '(l, r2) <- parse_array d rl f r1;;
          Ok (o :: l, r2).
Proof. reflexivity. Qed.
Lemma parse_dict_eq : forall f s acc, parse_dict d rl (S f) s acc =
      do '(tk, rest) <- read_token_skip d s;;
      if ttype_eqb (fst tk) TyDictEnd then Ok (acc, rest)
      else
        do '(k, r1) <- parse_obj d rl f s;;
        do '(v, r2) <- parse_obj d rl f r1;;
        match v, k with
        | ONull, _ => parse_dict d rl f r2 acc
        | _, OName n =>
            if sm_contains n acc then parse_dict d rl f r2 acc
            else if is_stream v then Throw EConversion
            else parse_dict d rl f r2 (sm_insert n v acc)
        | _, _ => parse_dict d rl f r2 acc
        end.
Proof. reflexivity. Qed.
Lemma parse_mono : forall f,
  (forall s x, parse_obj d rl f s = Ok x -> parse_obj d rl (S f) s = Ok x) /\
  (forall s x, parse_array d rl f s = Ok x -> parse_array d rl (S f) s = Ok x) /\
  (forall s acc x, parse_dict d rl f s acc = Ok x -> parse_dict d rl (S f) s acc = Ok x).
Proof.
  induction f as [|f (IHo & IHa & IHd)]; [repeat split; intros; discriminate|]. repeat split.
  - intros s x H. rewrite parse_obj_eq in *. destruct (read_token_skip d s) as [[tk rest]| | |]; cbn [rbind] in *; try discriminate.
    destruct (fst tk); try exact H.
    + destruct (parse_dict d rl f rest []) as [[l r]| | |] eqn:E; cbn [rbind] in H; try discriminate. rewrite (IHd _ _ _ E). exact H.
    + destruct (parse_array d rl f rest) as [[l r]| | |] eqn:E; cbn [rbind] in H; try discriminate. rewrite (IHa _ _ E). exact H.
  - intros s x H. rewrite parse_array_eq in *. destruct (read_token_skip d s) as [[tk rest]| | |]; cbn [rbind] in *; try discriminate.
    destruct (ttype_eqb (fst tk) TyArrayEnd); [exact H|].
    destruct (parse_obj d rl f s) as [[o r1]| | |] eqn:E; cbn [rbind] in H; try discriminate. rewrite (IHo _ _ E). cbn [rbind].
    destruct (is_stream o); [exact H|]. destruct (parse_array d rl f r1) as [[l r2]| | |] eqn:E2; cbn [rbind] in H; try discriminate. rewrite (IHa _ _ E2). exact H.
  - intros s acc x H. rewrite parse_dict_eq in *. destruct (read_token_skip d s) as [[tk rest]| | |]; cbn [rbind] in *; try discriminate.
    destruct (ttype_eqb (fst tk) TyDictEnd); [exact H|].
    destruct (parse_obj d rl f s) as [[k r1]| | |] eqn:E; cbn [rbind] in H; try discriminate. rewrite (IHo _ _ E). cbn [rbind].
    destruct (parse_obj d rl f r1) as [[v r2]| | |] eqn:E2; cbn [rbind] in H; try discriminate. rewrite (IHo _ _ E2). cbn [rbind].
    destruct v; [apply IHd; exact H| | | | | | | | | | ]; (destruct k; try (apply IHd; exact H);
      destruct (sm_contains _ acc); [apply IHd; exact H|]; destruct (is_stream _); [exact H|apply IHd; exact H]).
Qed.
Lemma parse_more : forall f g s x, (f <= g)%nat -> parse_obj d rl f s = Ok x -> parse_obj d rl g s = Ok x.
Proof. intros f g s x H. induction H; intros E; [exact E|]. apply (proj1 (parse_mono m)). apply IHle. exact E. Qed.
Lemma parse_gap : forall g s x, gap g -> parse_direct d rl s = Ok x -> parse_direct d rl (g ++ s) = Ok x.
Proof.
  intros g s x Hg H. unfold parse_direct in *. apply (parse_more _ (2 * List.length (g ++ s) + 2)) in H.
  - destruct (2 * List.length (g ++ s) + 2)%nat as [|f]; [discriminate|]. rewrite parse_obj_eq in *. rewrite skip_gap by exact Hg. exact H.
  - rewrite app_length. lia.
Qed.
End Mono.

(** ** what the writer can read back *)
Inductive stored : obj -> Prop :=
| sd_direct : forall o, writable o -> stored o
| sd_stream : forall m data, writable (ODict m) -> In (str "Length", OInt (Z.of_nat (List.length data))) m -> stored (OStream m data).

Lemma gap10 : gap [10]. Proof. apply gap_white; [exact white10|constructor]. Qed.
Lemma gap32 : gap [32]. Proof. apply gap_white; [exact white32|constructor]. Qed.

Lemma read_written_object : forall rl num gen o rest, num < 2 ^ 63 -> gen <= 65535 -> stored o ->
  read_indirect_object parser_dictionary rl (write_object num gen o ++ rest) = Ok (num, gen, o, [10] ++ rest).
Proof.
  intros rl num gen o rest Hn Hg Ho. unfold read_indirect_object, write_object. rewrite <- !app_assoc.
  assert (En := expect_number parser_dictionary [] 0 num 32). assert (Eg := expect_number parser_dictionary [32] 0 gen 32).
  change (pad_zero 0 (to_string_N num)) with (to_string_N num) in En. change (pad_zero 0 (to_string_N gen)) with (to_string_N gen) in Eg.
  cbn [app] in En. change ([32] ++ to_string_N gen ++ [32] ++ str "obj" ++ [10] ++ to_pdf o ++ [10] ++ str "endobj" ++ [10] ++ rest) with
    (32 :: to_string_N gen ++ 32 :: str "obj" ++ [10] ++ to_pdf o ++ [10] ++ str "endobj" ++ [10] ++ rest).
  rewrite En by (first [exact white32|exact gap_nil]). cbn [rbind].
  change (32 :: to_string_N gen ++ 32 :: str "obj" ++ [10] ++ to_pdf o ++ [10] ++ str "endobj" ++ [10] ++ rest) with
    ([32] ++ to_string_N gen ++ 32 :: str "obj" ++ [10] ++ to_pdf o ++ [10] ++ str "endobj" ++ [10] ++ rest).
  rewrite Eg by (first [exact white32|exact gap32]). cbn [rbind].
  unfold expect_skip at 1.
  change (32 :: str "obj" ++ [10] ++ to_pdf o ++ [10] ++ str "endobj" ++ [10] ++ rest) with
    ([32] ++ str "obj" ++ [10] ++ to_pdf o ++ [10] ++ str "endobj" ++ [10] ++ rest).
  rewrite skip_gap by exact gap32. rewrite tok_keyword by (cbn; tauto || (left; exact white10)). cbn [rbind fst snd].
  change (ttype_eqb (parser_dictionary (str "obj")) TyObjBegin) with true. cbv iota. cbn [rbind].
  assert (Ep : parse_direct parser_dictionary rl ([10] ++ to_pdf o ++ [10] ++ str "endobj" ++ [10] ++ rest) =
    Ok (o, [10] ++ str "endobj" ++ [10] ++ rest)).
  { destruct Ho as [o Ho|m data Hw Hin].
    - rewrite app_assoc. apply parse_gap_text; [exact gap10|apply to_pdf_text, Ho|].
      apply (oe_word [10] (str "endobj") ([10] ++ rest)); [exact gap10|discriminate|cbn; tauto|left; exact white10].
    - apply parse_gap; [exact gap10|]. apply (parse_stream_text (fun _ _ => None)); [discriminate|apply written_stream_text; assumption|left; exact white10]. }
  rewrite Ep. cbn [rbind]. unfold expect_skip. rewrite skip_gap by exact gap10. rewrite tok_keyword by (cbn; tauto || (left; exact white10)).
  cbn [rbind fst snd]. change (ttype_eqb (parser_dictionary (str "endobj")) TyObjEnd) with true. cbv iota. cbn [rbind].
  assert (S1 := stoll_padded 0 num Hn). change (pad_zero 0 (to_string_N num)) with (to_string_N num) in S1. rewrite S1. cbn [rbind].
  assert (S2 := stoll_padded 0 gen ltac:(change (2 ^ 63) with 9223372036854775808; lia)). change (pad_zero 0 (to_string_N gen)) with (to_string_N gen) in S2.
  rewrite S2. cbn [rbind]. unfold to_u64, to_u16. replace (Z.of_N num <? 0)%Z with false by lia. cbn [rbind].
  replace (Z.of_N gen <? 0)%Z with false by lia. replace (Z.of_N gen <=? 65535)%Z with true by lia. cbn [rbind]. rewrite !N2Z.id. reflexivity.
Qed.

(** ** dictionaries *)
Lemma keys_sorted_back : forall m : list (bytes * obj), sm_sorted m -> sm_keys_ok m -> keys_sorted m.
Proof.
  intros m H K. unfold keys_sorted. induction H as [|e m Hs IH Ha]; [constructor|]. inversion K as [|? ? K1 K2]; subst.
  constructor; [apply IH; exact K2|]. unfold sm_keys_ok in K2. rewrite Forall_forall in *. intros x Hx. apply ltb_key_lt; auto.
Qed.
Lemma writable_parts : forall m, writable (ODict m) -> sm_sorted m /\ sm_keys_ok m /\ Forall (fun e => writable (snd e) /\ snd e <> ONull) m.
Proof.
  intros m H. inversion H as [| | | | | | | | |m' H1 H2 H3]; subst. split; [apply sorted_keys; exact H1|].
  rewrite Forall_forall in H2, H3. split; unfold sm_keys_ok; rewrite Forall_forall; intros e He; [apply H2; exact He|].
  split; [apply H3; apply in_map; exact He|apply H2; exact He].
Qed.
Lemma writable_from : forall m, sm_sorted m -> sm_keys_ok m -> Forall (fun e => writable (snd e) /\ snd e <> ONull) m -> writable (ODict m).
Proof.
  intros m H1 H2 H3. apply w_dict; [apply keys_sorted_back; assumption| |].
  - unfold sm_keys_ok in H2. rewrite Forall_forall in *. intros e He. split; [auto|apply H3; exact He].
  - rewrite Forall_forall in *. intros o Ho. apply in_map_iff in Ho. destruct Ho as (e & <- & He). apply H3; exact He.
Qed.
Lemma writable_set : forall m k v, writable (ODict m) -> all_bytes k -> writable v -> v <> ONull ->
  writable (ODict (sm_insert k v (sm_remove k m))).
Proof.
  intros m k v H Hk Hv Hn. destruct (writable_parts m H) as (S1 & K1 & F1). apply writable_from.
  - apply sm_insert_sorted, sm_remove_sorted, S1.
  - apply sm_insert_keys_ok; [|exact Hk]. apply sm_remove_forall. exact K1.
  - apply sm_insert_forall; [split; assumption|]. apply sm_remove_forall. exact F1.
Qed.
Lemma writable_insert : forall m k v, writable (ODict m) -> all_bytes k -> writable v -> v <> ONull -> writable (ODict (sm_insert k v m)).
Proof.
  intros m k v H Hk Hv Hn. destruct (writable_parts m H) as (S1 & K1 & F1). apply writable_from.
  - apply sm_insert_sorted, S1.
  - apply sm_insert_keys_ok; [exact K1|exact Hk].
  - apply sm_insert_forall; [split; assumption|exact F1].
Qed.
Lemma find_set : forall (m : list (bytes * obj)) k v k2, writable (ODict m) -> all_bytes k -> all_bytes k2 ->
  sm_find k2 (sm_insert k v (sm_remove k m)) = if list_eq_dec N.eq_dec k2 k then Some v else sm_find k2 m.
Proof.
  intros m k v k2 H Hk Hk2. destruct (writable_parts m H) as (S1 & K1 & _).
  rewrite sm_find_insert; [| | |exact Hk|exact Hk2]; [|apply sm_remove_sorted; exact S1|apply sm_remove_forall; exact K1].
  rewrite !sm_find_remove by assumption. destruct (list_eq_dec N.eq_dec k2 k); [reflexivity|]. destruct (sm_find k2 m); reflexivity.
Qed.

(** ** streams get the right length *)
Lemma length_bytes : all_bytes (str "Length"). Proof. apply str_bytes. Qed.
Lemma recalculate_length_ok : forall o, storable o -> exists o', recalculate_length o = Ok o' /\ same_object o o' /\ stored o'.
Proof.
  intros o H. destruct H as [o Ho|m data Hw Hlen Hd].
  - exists o. assert (E : recalculate_length o = Ok o) by (destruct Ho; reflexivity). split; [exact E|]. split; [apply so_direct|apply sd_direct]; exact Ho.
  - cbn [recalculate_length]. destruct (writable_parts m Hw) as (S1 & K1 & F1).
    assert (Hi : writable (OInt (Z.of_nat (List.length data)))).
    { apply w_int. change (2 ^ 63) with 9223372036854775808 in Hd. change (2 ^ 63)%Z with 9223372036854775808%Z. lia. }
    assert (Hfind : forall m', sm_sorted m' -> sm_keys_ok m' -> writable (ODict m') ->
       (forall k, all_bytes k -> sm_find k m' = if list_eq_dec N.eq_dec k (str "Length") then Some (OInt (Z.of_nat (List.length data))) else sm_find k m) ->
       same_object (OStream m data) (OStream m' data) /\ stored (OStream m' data)).
    { intros m' S2 K2 W2 Hf. split.
      - apply so_stream.
        + intros k v Hk. split; intros Hin.
          * assert (Hb : all_bytes k) by (unfold sm_keys_ok in K1; rewrite Forall_forall in K1; exact (K1 _ Hin)).
            apply sm_find_in; auto. rewrite Hf by exact Hb. destruct (list_eq_dec N.eq_dec k (str "Length")); [congruence|]. apply sm_find_in; auto.
          * assert (Hb : all_bytes k) by (unfold sm_keys_ok in K2; rewrite Forall_forall in K2; exact (K2 _ Hin)).
            apply sm_find_in in Hin; auto. rewrite Hf in Hin by exact Hb. destruct (list_eq_dec N.eq_dec k (str "Length")); [congruence|]. apply sm_find_in; auto.
        + intros v. split; intros Hv.
          * apply sm_find_in in Hv; auto using length_bytes. rewrite Hf in Hv by exact length_bytes.
            destruct (list_eq_dec N.eq_dec (str "Length") (str "Length")); congruence.
          * subst v. apply sm_find_in; auto using length_bytes. rewrite Hf by exact length_bytes.
            destruct (list_eq_dec N.eq_dec (str "Length") (str "Length")); congruence.
      - apply sd_stream; [exact W2|]. apply sm_find_in; auto using length_bytes. rewrite Hf by exact length_bytes.
        destruct (list_eq_dec N.eq_dec (str "Length") (str "Length")); congruence. }
    assert (Hset : forall m', m' = sm_insert (str "Length") (OInt (Z.of_nat (List.length data))) (sm_remove (str "Length") m) ->
       same_object (OStream m data) (OStream m' data) /\ stored (OStream m' data)).
    { intros m' ->. assert (W := writable_set m (str "Length") _ Hw length_bytes Hi ltac:(discriminate)).
      destruct (writable_parts _ W) as (S2 & K2 & _). apply Hfind; auto. intros k Hk. apply find_set; auto using length_bytes. }
    destruct (sm_find (str "Length") m) as [v|] eqn:Ef.
    + assert (Hin : In (str "Length", v) m) by (apply sm_find_in; auto using length_bytes). destruct (Hlen v Hin) as (z & -> & Hz).
      unfold to_u64. replace (z <? 0)%Z with false by lia. cbn [rbind].
      destruct (Z.to_N z =? N.of_nat (List.length data)) eqn:Ez.
      * eexists. split; [reflexivity|]. apply Hfind; auto. intros k Hk.
        destruct (list_eq_dec N.eq_dec k (str "Length")) as [->|]; [|reflexivity]. rewrite Ef. do 2 f_equal. lia.
      * eexists. split; [reflexivity|]. apply Hset. reflexivity.
    + eexists. split; [reflexivity|]. assert (W := writable_insert m (str "Length") _ Hw length_bytes Hi ltac:(discriminate)).
      destruct (writable_parts _ W) as (S2 & K2 & _). apply Hfind; auto. intros k Hk. rewrite sm_find_insert by auto using length_bytes.
      destruct (list_eq_dec N.eq_dec k (str "Length")) as [->|]; [rewrite Ef; reflexivity|]. destruct (sm_find k m); reflexivity.
Qed.

Definition used_in_use (e : xentry) : Prop := match xdata e with KUsed _ true => True | _ => False end.
Definition kept (a b : xentry * obj) : Prop :=
  fst b = fst a /\ (used_in_use (fst a) -> same_object (snd a) (snd b) /\ stored (snd b)).
Lemma recalculate_lengths_ok : forall l, Forall (fun p => entry_saveable (fst p) /\ (used_in_use (fst p) -> storable (snd p))) l ->
  exists l', recalculate_lengths l = Ok l' /\ Forall2 kept l l'.
Proof.
  induction l as [|[e o] l IH]; intros H; [exists []; split; [reflexivity|constructor]|].
  inversion H as [|? ? (Hr & Hs) Ht]; subst. destruct (IH Ht) as (l' & E & F). cbn [recalculate_lengths fst snd] in *.
  destruct e as [num gen [next|offset u|a b]]; unfold entry_saveable, used_in_use in *; cbn [xdata xnum xgen] in *.
  - rewrite E. cbn [rbind]. eexists. split; [reflexivity|]. constructor; [split; [reflexivity|intros []]|exact F].
  - destruct Hr as (_ & _ & ->). destruct (recalculate_length_ok o (Hs I)) as (o' & Eo & So & Do). rewrite Eo, E. cbn [rbind].
    eexists. split; [reflexivity|]. constructor; [split; [reflexivity|intros _; split; assumption]|exact F].
  - destruct Hr as (_ & _ & []).
Qed.

(** ** offsets *)
Lemma Forall2_weaken : forall A B (P Q : A -> B -> Prop) l l', (forall a b, P a b -> Q a b) -> Forall2 P l l' -> Forall2 Q l l'.
Proof. intros A B P Q l l' H F. induction F; constructor; auto. Qed.
Definition placed (file : bytes) (lo hi : N) (a b : xentry * obj) : Prop :=
  xnum (fst b) = xnum (fst a) /\ xgen (fst b) = xgen (fst a) /\ snd b = snd a /\
  match xdata (fst a) with
  | KUsed _ _ => exists pos, xdata (fst b) = KUsed (Z.of_N pos) true /\ lo <= pos <= hi /\
      starts_at file (Z.of_N pos) (write_object (xnum (fst a)) (xgen (fst a)) (snd a))
  | _ => fst b = fst a
  end.
Lemma write_objects_ok : forall l pos before after, N.of_nat (List.length before) = pos ->
  Forall (fun p => entry_saveable (fst p)) l ->
  Forall2 (placed (before ++ fst (write_objects None pos l) ++ after) pos (pos + N.of_nat (List.length (fst (write_objects None pos l)))))
    l (snd (write_objects None pos l)).
Proof.
  induction l as [|[e o] l IH]; intros pos before after Hp H; [constructor|].
  inversion H as [|? ? Hr Ht]; subst. cbn [fst snd] in *. cbn [write_objects is_self].
  destruct e as [num gen data]. unfold entry_saveable in *. cbn [xnum xgen xdata] in *.
  destruct data as [next|offset u|a b]; [| |destruct Hr as (_ & _ & [])].
  - specialize (IH (N.of_nat (List.length before)) before after eq_refl Ht). destruct (write_objects None _ l) as [txt t'] eqn:E. cbn [fst snd] in *.
    constructor; [|exact IH]. repeat split.
  - destruct Hr as (_ & _ & ->). set (b := write_object num gen o).
    specialize (IH (N.of_nat (List.length before) + N.of_nat (List.length b)) (before ++ b) after).
    destruct (write_objects None (N.of_nat (List.length before) + N.of_nat (List.length b)) l) as [txt t'] eqn:E. cbn [fst snd] in *.
    rewrite app_length in IH. specialize (IH ltac:(lia) Ht). constructor.
    + repeat split. cbn [fst snd xdata xnum xgen]. exists (N.of_nat (List.length before)). split; [reflexivity|]. split; [rewrite app_length; lia|].
      split; [lia|]. exists before, (txt ++ after). fold b. split; [rewrite <- !app_assoc; reflexivity|lia].
    + rewrite <- !app_assoc in IH. rewrite <- app_assoc. eapply Forall2_weaken; [|exact IH]. intros [e1 o1] [e2 o2] (P1 & P2 & P3 & P4).
      repeat split; try assumption. cbn [fst snd] in *. destruct (xdata e1); try assumption.
      destruct P4 as (p & P5 & P6 & P7). exists p. split; [exact P5|]. split; [rewrite app_length; lia|exact P7].
Qed.

Lemma Forall2_In : forall A B (P : A -> B -> Prop) l l' a, Forall2 P l l' -> In a l -> exists b, In b l' /\ P a b.
Proof.
  intros A B P l l' a F. induction F as [|x y l l' Hxy F IH]; intros Hin; [destruct Hin|]. destruct Hin as [<-|Hin].
  - exists y. split; [left; reflexivity|exact Hxy].
  - destruct (IH Hin) as (b & Hb & Pb). exists b. split; [right; exact Hb|exact Pb].
Qed.
Lemma Forall2_nums : forall (P : xentry * obj -> xentry * obj -> Prop) l l', (forall a b, P a b -> xnum (fst b) = xnum (fst a)) -> Forall2 P l l' ->
  map (fun p => xnum (fst p)) l' = map (fun p => xnum (fst p)) l.
Proof. intros P l l' H F. induction F; [reflexivity|]. cbn [map]. rewrite IHF, (H _ _ H0). reflexivity. Qed.
Lemma sorted_nums : forall l, xsorted (map fst (l : list (xentry * obj))) <-> StronglySorted N.lt (map (fun p => xnum (fst p)) l).
Proof.
  unfold xsorted. induction l as [|[e o] l IH]; cbn [map]; [split; intros; constructor|]. split; intros H; inversion H as [|? ? H1 H2]; subst; constructor.
  - apply IH, H1.
  - rewrite Forall_forall in *. intros n Hn. apply in_map_iff in Hn. destruct Hn as (p & <- & Hp). apply (H2 (fst p)). apply in_map, Hp.
  - apply IH, H1.
  - rewrite Forall_forall in *. intros x Hx. apply in_map_iff in Hx. destruct Hx as (p & <- & Hp). apply (H2 (xnum (fst p))).
    apply (in_map (fun p : xentry * obj => xnum (fst p))), Hp.
Qed.
Lemma sorted_find : forall t e, xsorted t -> In e t -> find (fun x => xnum x =? xnum e) t = Some e.
Proof.
  unfold xsorted. induction t as [|y t IH]; intros e Hs Hin; [destruct Hin|]. inversion Hs as [|? ? H1 H2]; subst. cbn [find].
  destruct Hin as [->|Hin]; [rewrite N.eqb_refl; reflexivity|]. rewrite Forall_forall in H2. specialize (H2 e Hin). unfold xlt in H2.
  replace (xnum y =? xnum e) with false by lia. apply IH; assumption.
Qed.

Lemma Ok_inj : forall A (a b : A), Ok a = Ok b -> a = b. Proof. intros A a b H. congruence. Qed.
Lemma forget_sorted : forall t, xsorted t -> xsorted (map forget t).
Proof.
  unfold xsorted. intros t H. induction H as [|e t H IH Ha]; cbn [map]; constructor; [exact IH|]. rewrite Forall_forall in *. intros x Hx.
  apply in_map_iff in Hx. destruct Hx as (y & <- & Hy). exact (Ha y Hy).
Qed.
Lemma skipn_exact : forall (a b : bytes), skipn (List.length a) (a ++ b) = b.
Proof. intros a b. rewrite skipn_app, skipn_all, Nat.sub_diag. reflexivity. Qed.
Lemma file_reopened : forall rl v l trailer file,
  StronglySorted N.lt (map (fun p => xnum (fst p)) l) ->
  Forall (fun p => entry_saveable (fst p) /\ (used_in_use (fst p) -> storable (snd p))) l ->
  writable (ODict trailer) -> sm_find (str "Prev") trailer = None -> sm_find (str "XRefStm") trailer = None ->
  write_table_file v l trailer = Ok file -> (Z.of_nat (List.length file) < 2 ^ 63)%Z -> N.of_nat (List.length l) < 2 ^ 63 ->
  exists t, open_file parser_dictionary rl file = Ok (v, t, ODict (set_size trailer (N.of_nat (List.length l)))) /\
    (forall n, entry_for n t <> None -> exists p, In p l /\ xnum (fst p) = n) /\
    forall e o, In (e, o) l ->
      match xdata e with
      | KUsed _ _ => exists offset o', find (fun x => xnum x =? xnum e) t = Some {| xnum := xnum e; xgen := xgen e; xdata := KUsed offset true |} /\
          starts_at file offset (object_heading (xnum e) (xgen e)) /\
          load_entry parser_dictionary rl file {| xnum := xnum e; xgen := xgen e; xdata := KUsed offset true |} = Ok (xnum e, xgen e, o') /\
          same_object o o'
      | _ => find (fun x => xnum x =? xnum e) t = Some {| xnum := xnum e; xgen := xgen e; xdata := KFree 0 |}
      end.
Proof.
  intros rl v l trailer file Hs Hl Ht Hp Hx Hw Hlen Hcnt. unfold write_table_file in Hw.
  destruct (recalculate_lengths_ok l Hl) as (l1 & E1 & F1). rewrite E1 in Hw. cbn [rbind] in Hw.
  assert (Hl1 : Forall (fun p => entry_saveable (fst p)) l1).
  { clear - Hl F1. induction F1 as [|a b l l1 (K & _) F IH]; [constructor|]. inversion Hl as [|? ? (A & _) H]; subst. constructor; [rewrite K; auto|auto]. }
  assert (Elen : List.length l1 = List.length l) by (clear - F1; induction F1; cbn; auto).
  assert (Esz : recalculate_size (map fst l1) = N.of_nat (List.length l)) by (unfold recalculate_size; rewrite map_length, Elen; reflexivity).
  rewrite Esz in Hw.
  set (hdr := write_header v) in *.
  assert (Ho := fun after => write_objects_ok l1 (N.of_nat (List.length hdr)) hdr after eq_refl Hl1).
  destruct (write_objects None (N.of_nat (List.length hdr)) l1) as [body l2] eqn:E2. cbn [fst snd] in Ho.
  apply rbind_ok in Hw. destruct Hw as (table & Etab & Hw). apply Ok_inj in Hw. rename Hw into Efile.
  set (off := Z.of_nat (List.length (hdr ++ body ++ [10]))) in *.
  set (m' := set_size trailer (N.of_nat (List.length l))) in *.
  assert (Hfl : Z.of_nat (List.length file) = (off + Z.of_nat (List.length (table ++ write_xref_offset off)))%Z).
  { rewrite <- Efile. generalize (write_xref_offset off). intros W. unfold off. rewrite !app_length. lia. }
  specialize (Ho ([10] ++ table ++ write_xref_offset off)). rewrite Efile in Ho.
  assert (Hbody : (Z.of_nat (List.length hdr) + Z.of_nat (List.length body) <= off)%Z) by (unfold off; rewrite !app_length; lia).
  change (2 ^ 63)%Z with 9223372036854775808%Z in Hlen.
  (* the table that is written *)
  assert (Hnums : map (fun p => xnum (fst p)) l2 = map (fun p => xnum (fst p)) l).
  { rewrite (Forall2_nums _ _ _ (fun a b (H : placed _ _ _ a b) => proj1 H) Ho).
    apply (Forall2_nums kept); [intros a b [K _]; rewrite K; reflexivity|exact F1]. }
  assert (Hs2 : xsorted (map fst l2)) by (apply sorted_nums; rewrite Hnums; exact Hs).
  assert (Hr2 : Forall entry_in_range (map fst l2) /\ Forall not_compressed (map fst l2)).
  { clear - Ho Hl1 Hlen Hfl Hbody. induction Ho as [|a b l1 l2 (P1 & P2 & P3 & P4) F IH]; [split; constructor|].
    inversion Hl1 as [|? ? B H]; subst. destruct (IH H) as [I1 I2]. cbn [map]. destruct a as [[an ag ad] ao], b as [[bn bg bd] bo].
    unfold entry_saveable in B. cbn [fst snd xnum xgen xdata] in *. subst.
    destruct ad as [next|o u|s i]; [| |destruct B as (_ & _ & [])].
    - inversion P4; subst. split; (constructor; [|assumption]); [exact B|exact I].
    - destruct P4 as (pos & -> & Hpos & _). split; (constructor; [|assumption]); [|exact I]. unfold entry_in_range. cbn [xnum xgen xdata].
      destruct B as (B1 & B2 & B3). change (2 ^ 63)%Z with 9223372036854775808%Z. repeat split; auto; try lia. }
  destruct Hr2 as [Hr2 Hc2].
  assert (Hsize : writable (OInt (Z.of_N (N.of_nat (List.length l))))).
  { apply w_int. change (2 ^ 63) with 9223372036854775808 in Hcnt. change (2 ^ 63)%Z with 9223372036854775808%Z. lia. }
  assert (Hwm : writable (ODict m')) by (apply writable_set; [exact Ht|apply str_bytes|exact Hsize|discriminate]).
  assert (Hend : object_end (10 :: write_xref_offset off)).
  { apply (oe_word [10] (str "startxref") ([10] ++ to_string_Z off ++ [10] ++ str "%%EOF" ++ [10])); [exact gap10|discriminate|cbn; tauto|left; exact white10]. }
  destruct (table_roundtrip rl (map fst l2) m' (write_xref_offset off) Hs2 Hr2 Hc2 Hwm Hend) as (table' & Et & Er).
  rewrite Etab in Et. inversion Et; subst table'. clear Et.
  (* opening *)
  assert (Eskip : skipn (Z.to_nat off) file = table ++ write_xref_offset off).
  { rewrite <- Efile. replace (hdr ++ body ++ [10] ++ table ++ write_xref_offset off) with ((hdr ++ body ++ [10]) ++ table ++ write_xref_offset off)
      by (rewrite <- !app_assoc; reflexivity). unfold off at 1. rewrite Nat2Z.id. rewrite skipn_app, skipn_all, Nat.sub_diag. reflexivity. }
  assert (Etxt : exists mid, table = str "xref" ++ [10] ++ mid ++ [10]).
  { unfold write_xref_table in Etab. apply rbind_ok in Etab. destruct Etab as (subs & _ & Etab). apply Ok_inj in Etab. rewrite <- Etab.
    exists (subs ++ str "trailer" ++ [10] ++ to_pdf (ODict m')). rewrite <- !app_assoc. reflexivity. }
  destruct Etxt as (mid & Etxt).
  exists (map forget (map fst l2)). split; [|split].
  - unfold open_file. rewrite <- Efile at 1. unfold hdr at 1.
    assert (Eh := header_roundtrip [] v (body ++ [10] ++ table ++ write_xref_offset off) ltac:(constructor)). cbn [lines_text flat_map app] in Eh.
    cbn [app]. rewrite Eh. cbn [rbind].
    assert (El : last_xref_offset file = Ok off).
    { rewrite <- Efile. replace (hdr ++ body ++ [10] ++ table ++ write_xref_offset off) with ((hdr ++ body ++ [10] ++ table) ++ write_xref_offset off ++ [])
        by (rewrite app_nil_r, <- !app_assoc; reflexivity).
      apply last_offset_found; [|constructor|cbn; lia|unfold off in *; change (2 ^ 63)%Z with 9223372036854775808%Z; lia].
      right. exists (hdr ++ body ++ [10] ++ str "xref" ++ [10] ++ mid), 10. split; [rewrite Etxt, <- !app_assoc; reflexivity|exact white10]. }
    rewrite El. cbn [rbind]. unfold read_xref_at. rewrite Eskip.
    assert (Epk : peek_type_skip parser_dictionary (table ++ write_xref_offset off) = Ok TyXref).
    { rewrite Etxt, <- !app_assoc. unfold peek_type_skip. rewrite tok_keyword by (cbn; tauto || (left; exact white10)). reflexivity. }
    rewrite Epk. cbn [rbind]. change (ttype_eqb TyXref TyXref) with true. cbv iota. rewrite Er. cbn [rbind].
    assert (Fp : forall k, str k <> str "Size" -> sm_find (str k) trailer = None -> sm_contains (str k) m' = false).
    { intros k Hne Hf. unfold sm_contains, m', set_size. rewrite find_set; [|exact Ht|apply str_bytes|apply str_bytes].
      destruct (list_eq_dec N.eq_dec (str k) (str "Size")) as [E|_]; [congruence|rewrite Hf; reflexivity]. }
    rewrite (Fp "Prev"%string), (Fp "XRefStm"%string); try discriminate; try assumption. reflexivity.
  - intros n Hn. unfold entry_for in Hn. destruct (find _ (map forget (map fst l2))) as [x|] eqn:Ef; [|cbn in Hn; congruence].
    apply find_some in Ef. destruct Ef as [Hin Hx']. apply in_map_iff in Hin. destruct Hin as (e & <- & Hin).
    apply in_map_iff in Hin. destruct Hin as (p & <- & Hin). cbn [forget xnum] in Hx'.
    assert (Hi : In (xnum (fst p)) (map (fun p => xnum (fst p)) l)) by (rewrite <- Hnums; apply (in_map (fun p : xentry * obj => xnum (fst p))), Hin).
    apply in_map_iff in Hi. destruct Hi as (q & Eq & Hq). exists q. split; [exact Hq|lia].
  - intros e o Hin. destruct (Forall2_In _ _ _ _ _ _ F1 Hin) as ([e1 o1] & Hin1 & (K1 & K2)). cbn [fst snd] in *. subst e1.
    destruct (Forall2_In _ _ _ _ _ _ Ho Hin1) as ([e2 o2] & Hin2 & (P1 & P2 & P3 & P4)). cbn [fst snd] in *. subst o2.
    assert (Hf : find (fun x => xnum x =? xnum e) (map forget (map fst l2)) = Some (forget e2)).
    { rewrite <- P1. change (xnum e2) with (xnum (forget e2)). apply sorted_find; [apply forget_sorted; exact Hs2|].
      apply in_map. apply (in_map fst) in Hin2. exact Hin2. }
    rewrite Forall_forall in Hl. destruct (Hl _ Hin) as (B & C). cbn [fst snd] in *. destruct e as [num gen data], e2 as [num2 gen2 data2].
    unfold entry_saveable, used_in_use in *. cbn [xnum xgen xdata] in *. subst num2 gen2. destruct B as (B1 & B2 & B3).
    destruct data as [next|offset u|sn si]; [| |destruct B3].
    + inversion P4; subst. exact Hf.
    + rewrite B3 in *. destruct P4 as (pos & -> & Hpos & Hst). destruct (K2 I) as (Hso & Hsd).
      exists (Z.of_N pos), o1. split; [exact Hf|]. destruct Hst as (_ & before & after & Ef & Eb). split; [|split; [|exact Hso]].
      * split; [lia|]. unfold write_object in Ef. exists before, (to_pdf o1 ++ [10] ++ str "endobj" ++ [10] ++ after). split; [|exact Eb].
        rewrite Ef. unfold object_heading. rewrite <- !app_assoc. reflexivity.
      * unfold load_entry. cbn [xdata]. replace (Z.to_nat (Z.of_N pos)) with (List.length before) by lia. rewrite Ef, skipn_exact.
        rewrite read_written_object by assumption. reflexivity.
Qed.

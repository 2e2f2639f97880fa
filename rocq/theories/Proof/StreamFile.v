(** A document written with a cross-reference stream and opened again. *)
From Coq Require Import List NArith ZArith Bool Lia String Sorted Permutation.
From Verif.Model Require Import Base Char Numbers SMap Object Token Parser Arith Xref ObjStream StartXref Header FileWrite Chain Loading StreamFile.
From Verif.Spec Require Import Strings Grammar Xref ObjStream FileWrite Loading StreamFile.
From Verif.Proof Require Import Tac Numbers Strings Token SMap Parser Writer StreamObj Arith Xref StartXref FileWrite ObjStream XrefStream Loading.
From Verif.Props Require Import ObjStream FileWrite.
Import ListNotations.
Local Open Scope N_scope.

(** ** object streams *)
Lemma compressed_in : forall l c, In c (compressed l) <-> exists e o, In (e, o) l /\ xdata e = KComp (ce_stream c) (ce_index c) /\ xnum e = ce_num c /\ o = ce_obj c.
Proof.
  intros l c. unfold compressed. rewrite in_flat_map. split.
  - intros ([e o] & Hin & Hc). unfold compressed_of in Hc. cbn [fst snd] in Hc. destruct (xdata e) as [|?|s i] eqn:E; [destruct Hc|destruct Hc|].
    destruct Hc as [<-|[]]. exists e, o. cbn [ce_stream ce_index ce_num ce_obj]. auto.
  - intros (e & o & Hin & E & En & Eo). exists (e, o). split; [exact Hin|]. unfold compressed_of. cbn [fst snd]. rewrite E. left. destruct c. cbn in *. congruence.
Qed.
Lemma compressed_nums : forall l, StronglySorted N.lt (map (fun p => xnum (fst p)) l) -> NoDup (map ce_num (compressed l)).
Proof.
  induction l as [|[e o] l IH]; intros H; [constructor|]. cbn [map] in H. inversion H as [|? ? H1 H2]; subst. specialize (IH H1).
  change (compressed ((e, o) :: l)) with (compressed_of (e, o) ++ compressed l). unfold compressed_of at 1. cbn [fst snd] in *.
  destruct (xdata e) as [|?|s i]; [exact IH|exact IH|]. cbn [app map ce_num]. constructor; [|exact IH]. intros Hin.
  apply in_map_iff in Hin. destruct Hin as (c & Ec & Hc). apply compressed_in in Hc. destruct Hc as (e' & o' & Hin & _ & En & _).
  rewrite Forall_forall in H2. specialize (H2 (xnum e')). assert (Hi : In (xnum e') (map (fun p => xnum (fst p)) l)) by (apply (in_map (fun p : xentry * obj => xnum (fst p)) _ _ Hin)).
  specialize (H2 Hi). lia.
Qed.
Lemma stream_numbers_spec : forall l seen, NoDup (stream_numbers l seen) /\ forall k, In k (stream_numbers l seen) <-> ~ In k seen /\ exists c, In c l /\ ce_stream c = k.
Proof.
  induction l as [|x t IH]; intros seen; cbn [stream_numbers].
  - split; [constructor|]. intros k. split; [intros []|intros (_ & c & [] & _)].
  - destruct (existsb (N.eqb (ce_stream x)) seen) eqn:E.
    + destruct (IH seen) as (I1 & I2). split; [exact I1|]. intros k. rewrite I2. apply existsb_exists in E. destruct E as (y & Hy & Ey). apply N.eqb_eq in Ey. subst y.
      split; intros (A & c & B & C); (split; [exact A|]).
      * exists c. split; [right; exact B|exact C].
      * destruct B as [<-|B]; [subst k; contradiction|]. exists c. auto.
    + assert (Hn : ~ In (ce_stream x) seen).
      { intros Hi. assert (existsb (N.eqb (ce_stream x)) seen = true); [|congruence]. apply existsb_exists. exists (ce_stream x). split; [exact Hi|apply N.eqb_refl]. }
      destruct (IH (ce_stream x :: seen)) as (I1 & I2). split.
      * constructor; [|exact I1]. rewrite I2. intros (A & _). apply A. left. reflexivity.
      * intros k. split.
        -- intros [<-|Hk]; [split; [exact Hn|exists x; split; [left; reflexivity|reflexivity]]|]. apply I2 in Hk. destruct Hk as (A & c & B & C).
           split; [intros Hs; apply A; right; exact Hs|exists c; split; [right; exact B|exact C]].
        -- intros (A & c & B & C). destruct (N.eq_dec (ce_stream x) k) as [Ek|Ek]; [left; exact Ek|]. right. apply I2. split.
           ++ intros [H|H]; contradiction.
           ++ destruct B as [<-|B]; [contradiction|]. exists c. auto.
Qed.
Lemma rebuilt_keys : forall l, NoDup (map fst (fst (rebuild_section l))).
Proof. intros l. cbn [rebuild_section fst]. rewrite map_map. cbn [fst]. rewrite map_id. apply stream_numbers_spec. Qed.

Section Refill.
Variable encode : header -> bytes -> res bytes.
(** the object [o'] that takes the place of [o] *)
Definition refilled (todo : list (N * (N * N * bytes))) (e : xentry) (o o' : obj) : Prop :=
  (o' = o /\ (forall c, ~ In (xnum e, c) todo)) \/
  exists n first body m d b off u, In (xnum e, (n, first, body)) todo /\ xgen e = 0 /\ xdata e = KUsed off u /\
    o = OStream m d /\ encode (set_counts n first m) body = Ok b /\ o' = OStream (set_counts n first m) b.
Definition rpair todo (a b : xentry * obj) : Prop := fst b = fst a /\ refilled todo (fst a) (snd a) (snd b).
Lemma refill_one_ok : forall k n first body l l', NoDup (map (fun p => xnum (fst p)) l) -> refill_one encode k n first body l = Ok l' ->
  Forall2 (rpair [(k, (n, first, body))]) l l'.
Proof.
  intros k n first body. induction l as [|[e o] l IH]; intros l' Hd H; [discriminate|]. cbn [refill_one] in H. cbn [map fst] in Hd. inversion Hd as [|? ? D1 D2]; subst.
  assert (Hother : forall t, (forall p, In p t -> xnum (fst p) <> k) -> Forall2 (rpair [(k, (n, first, body))]) t t).
  { induction t as [|p t IHt]; intros Ht; [constructor|]. constructor; [|apply IHt; intros q Hq; apply Ht; right; exact Hq].
    split; [reflexivity|]. left. split; [reflexivity|]. intros c [E|[]]. injection E as E1 _. apply (Ht p); [left; reflexivity|congruence]. }
  destruct (xnum e =? k) eqn:Ek.
  - destruct (xgen e =? 0) eqn:Eg; [|discriminate]. destruct (xdata e) as [|off u|] eqn:Ed; try discriminate. destruct o as [| | | | | | | | | |m d]; try discriminate.
    apply rbind_ok in H. destruct H as (b & Eb & H). apply Ok_inj in H. subst l'. constructor.
    + split; [reflexivity|]. right. cbn [fst snd]. exists n, first, body, m, d, b, off, u. repeat split; auto; [left; f_equal; lia|lia].
    + apply Hother. intros p Hp E. apply D1. apply in_map_iff. exists p. split; [lia|exact Hp].
  - apply rbind_ok in H. destruct H as (t' & Et & H). apply Ok_inj in H. subst l'. constructor; [|apply IH; auto].
    split; [reflexivity|]. left. split; [reflexivity|]. cbn [fst]. intros c [E|[]]. injection E as E1 _. lia.
Qed.
Lemma refill_one_found : forall k n first body l l', refill_one encode k n first body l = Ok l' -> exists e m d off u, In (e, OStream m d) l /\ xnum e = k /\ xgen e = 0 /\ xdata e = KUsed off u.
Proof.
  intros k n first body. induction l as [|[e o] l IH]; intros l' H; [discriminate|]. cbn [refill_one] in H. destruct (xnum e =? k) eqn:Ek.
  - destruct (xgen e =? 0) eqn:Eg; [|discriminate]. destruct (xdata e) as [|off u|] eqn:Ed; try discriminate. destruct o as [| | | | | | | | | |m d]; try discriminate.
    exists e, m, d, off, u. repeat split; [left; reflexivity|lia|lia|exact Ed].
  - apply rbind_ok in H. destruct H as (t' & Et & _). destruct (IH _ Et) as (e' & m & d & off & u & A & B). exists e', m, d, off, u. split; [right; exact A|exact B].
Qed.
Lemma Forall2_trans3 : forall A (P Q R : A -> A -> Prop) l1 l2 l3, (forall a b c, P a b -> Q b c -> R a c) -> Forall2 P l1 l2 -> Forall2 Q l2 l3 -> Forall2 R l1 l3.
Proof. intros A P Q R l1 l2 l3 H F. revert l3. induction F; intros l3 G; inversion G; subst; constructor; eauto. Qed.
Lemma refill_ok : forall todo l l', NoDup (map fst todo) -> NoDup (map (fun p => xnum (fst p)) l) -> refill encode todo l = Ok l' -> Forall2 (rpair todo) l l'.
Proof.
  induction todo as [|[k [[n first] body]] todo IH]; intros l l' Hd Hn H; cbn [refill] in H.
  - apply Ok_inj in H. subst l'. clear. induction l as [|[e o] l IH]; constructor; [|exact IH]. split; [reflexivity|]. left. split; [reflexivity|intros c []].
  - apply rbind_ok in H. destruct H as (l1 & E1 & H). cbn [map fst] in Hd. inversion Hd as [|? ? D1 D2]; subst.
    assert (F1 := refill_one_ok _ _ _ _ _ _ Hn E1).
    assert (Hn1 : NoDup (map (fun p => xnum (fst p)) l1)).
    { rewrite (Forall2_nums _ _ _ (fun a b (X : rpair _ a b) => f_equal xnum (proj1 X)) F1). exact Hn. }
    assert (F2 := IH _ _ D2 Hn1 H). eapply Forall2_trans3; [|exact F1|exact F2]. intros [e1 o1] [e2 o2] [e3 o3] (A1 & A2) (B1 & B2). cbn [fst snd] in *. subst e2 e3.
    split; [reflexivity|]. cbn [fst snd]. destruct A2 as [(-> & A2)|(n' & f' & b' & m & d & b & off & u & A3 & A4 & A5 & A6 & A7 & A8)].
    + destruct B2 as [(-> & B2)|(n' & f' & b' & m & d & b & off & u & B3 & B4)].
      * left. split; [reflexivity|]. intros c [E|E]; [apply (A2 c); left; exact E|exact (B2 c E)].
      * right. exists n', f', b', m, d, b, off, u. split; [right; exact B3|exact B4].
    + destruct A3 as [A3|[]]. injection A3 as -> -> -> ->. destruct B2 as [(-> & B2)|(n2 & f2 & b2 & m2 & d2 & bb & off2 & u2 & B3 & _)].
      * right. exists n', f', b', m, d, b, off, u. repeat split; auto. left. reflexivity.
      * exfalso. apply D1. apply (in_map fst) in B3. exact B3.
Qed.
End Refill.

(** ** the size of a rebuilt body *)
Definition ctext (l : list comp_entry) : bytes := flat_map (fun e => to_pdf (ce_obj e)) l.
Lemma dtext_length : forall l, List.length (dtext l) = (List.length (ctext l) + List.length l)%nat.
Proof. induction l as [|e t IH]; [reflexivity|]. cbn [dtext List.length ctext flat_map]. rewrite !app_length. fold (ctext t). lia. Qed.
Lemma htext_length : forall l off, Forall (fun e => ce_num e < 2 ^ 63) l -> off + N.of_nat (List.length (dtext l)) < 2 ^ 63 ->
  (List.length (htext off l) <= 40 * List.length l)%nat.
Proof.
  induction l as [|e t IH]; intros off Hf Ho; cbn [htext List.length]; [lia|]. inversion Hf as [|? ? H1 H2]; subst.
  change (2 ^ 63) with 9223372036854775808 in *.
  assert (L1 := digits_len (ce_num e) 19 ltac:(lia) ltac:(change (10 ^ 19) with 10000000000000000000; lia)).
  assert (L2 := digits_len off 19 ltac:(lia) ltac:(change (10 ^ 19) with 10000000000000000000; lia)).
  change (N.to_nat 19) with 19%nat in *. unfold to_string_N. cbn [dtext List.length] in Ho. rewrite app_length in Ho.
  specialize (IH (off + (tlen e + 1)) H2). unfold tlen in *.
  rewrite app_length. cbn [List.length]. rewrite app_length. specialize (IH ltac:(lia)). lia.
Qed.
Lemma ctext_perm : forall a b, Permutation a b -> List.length (ctext a) = List.length (ctext b).
Proof. intros a b H. apply Permutation_length. apply Permutation_flat_map. exact H. Qed.
Lemma ctext_filter : forall p l, (List.length (ctext (filter p l)) <= List.length (ctext l))%nat.
Proof.
  intros p. unfold ctext. induction l as [|e t IH]; [cbn; lia|]. cbn [filter]. destruct (p e); cbn [flat_map]; rewrite ?app_length; lia.
Qed.
Lemma filter_length_le : forall A p (l : list A), (List.length (filter p l) <= List.length l)%nat.
Proof. intros A p. induction l as [|e t IH]; cbn [filter]; [lia|]. destruct (p e); cbn [List.length]; lia. Qed.
Lemma ctext_compressed : forall l, (List.length (ctext (compressed l)) <= List.length (flat_map (fun p => to_pdf (snd p)) l))%nat /\
  (List.length (compressed l) <= List.length l)%nat.
Proof.
  induction l as [|[e o] l (I1 & I2)]; [cbn; lia|]. change (compressed ((e, o) :: l)) with (compressed_of (e, o) ++ compressed l). unfold ctext in *.
  rewrite flat_map_app. cbn [flat_map]. rewrite !app_length. unfold compressed_of. cbn [fst snd]. destruct (xdata e); cbn [flat_map ce_obj List.length]; rewrite ?app_length; cbn [List.length]; lia.
Qed.
Lemma rebuilt_size : forall l n first body, l <> [] -> Forall (fun e => ce_num e < 2 ^ 63) l ->
  (Z.of_nat (List.length (ctext l)) + 64 * Z.of_nat (List.length l) + 64 < 2 ^ 63)%Z ->
  rebuild_object_stream l = (n, first, body) -> N.of_nat (List.length body) < 2 ^ 63.
Proof.
  intros l n first body Hne Hf Hs H. unfold rebuild_object_stream in H. assert (P := sort_perm l).
  assert (El := ctext_perm _ _ P). assert (El2 := Permutation_length P). assert (Hf2 : Forall (fun e => ce_num e < 2 ^ 63) (sort_by_index l)).
  { rewrite Forall_forall in *. intros e He. apply Hf. apply (Permutation_in _ P), He. }
  destruct (sort_by_index l) as [|e t] eqn:Es.
  { apply Permutation_length in P. destruct l; [congruence|cbn in P; lia]. }
  destruct (objstm_parts true 0 (e :: t)) as [h b] eqn:Ep. apply parts_true in Ep. destruct Ep as [Eh Eb]. injection H as _ _ <-.
  change (2 ^ 63)%Z with 9223372036854775808%Z in Hs. assert (D := dtext_length (e :: t)). 
  assert (T := htext_length (e :: t) 0 Hf2 ltac:(change (2 ^ 63) with 9223372036854775808; lia)).
  rewrite <- Eh in T. assert (Db : S (List.length b) = List.length (dtext (e :: t))) by (rewrite <- Eb; reflexivity).
  change (2 ^ 63) with 9223372036854775808. rewrite app_length. cbn [List.length] in *. lia.
Qed.

(** ** stream lengths and offsets *)
Definition kept_any (a b : xentry * obj) : Prop :=
  fst b = fst a /\ match xdata (fst a) with KUsed _ _ => same_object (snd a) (snd b) /\ stored (snd b) | _ => snd b = snd a end.
Lemma lengths_ok : forall l, (forall e o, In (e, o) l -> match xdata e with KUsed _ _ => storable o | KComp _ _ => is_stream o = false | KFree _ => True end) ->
  exists l', recalculate_lengths l = Ok l' /\ Forall2 kept_any l l'.
Proof.
  induction l as [|[e o] l IH]; intros H; [exists []; split; [reflexivity|constructor]|].
  destruct (IH (fun e' o' Hin => H e' o' (or_intror Hin))) as (l' & E & F). specialize (H e o (or_introl eq_refl)). cbn [recalculate_lengths].
  destruct (xdata e) as [next|off u|k i] eqn:Ed.
  - rewrite E. cbn [rbind]. eexists. split; [reflexivity|]. constructor; [|exact F]. unfold kept_any. cbn [fst snd]. rewrite Ed. auto.
  - destruct (recalculate_length_ok o H) as (o' & Eo & So & Do). rewrite Eo, E. cbn [rbind]. eexists. split; [reflexivity|]. constructor; [|exact F].
    unfold kept_any. cbn [fst snd]. rewrite Ed. auto.
  - rewrite H, E. cbn [rbind]. eexists. split; [reflexivity|]. constructor; [|exact F]. unfold kept_any. cbn [fst snd]. rewrite Ed. auto.
Qed.
Lemma writable_not_stream : forall o, writable o -> is_stream o = false.
Proof. intros o H. destruct H; reflexivity. Qed.
Lemma set_counts_writable : forall n first m, n < 2 ^ 63 -> first < 2 ^ 63 -> writable (ODict m) -> writable (ODict (set_counts n first m)).
Proof.
  intros n first m Hn Hf Hm. change (2 ^ 63) with 9223372036854775808 in *. unfold set_counts.
  apply writable_set; [|apply str_bytes|apply w_int; change (2 ^ 63)%Z with 9223372036854775808%Z; lia|discriminate].
  apply writable_set; [exact Hm|apply str_bytes|apply w_int; change (2 ^ 63)%Z with 9223372036854775808%Z; lia|discriminate].
Qed.
Lemma counts_find : forall n first m k, n < 2 ^ 63 -> first < 2 ^ 63 -> writable (ODict m) -> all_bytes k ->
  sm_find k (set_counts n first m) = if list_eq_dec N.eq_dec k (str "First") then Some (OInt (Z.of_N first))
    else if list_eq_dec N.eq_dec k (str "N") then Some (OInt (Z.of_N n)) else sm_find k m.
Proof.
  intros n first m k Hn Hf Hm Hk. unfold set_counts. change (2 ^ 63) with 9223372036854775808 in *.
  rewrite find_set; [| |apply str_bytes|exact Hk].
  - destruct (list_eq_dec N.eq_dec k (str "First")); [reflexivity|]. apply find_set; [exact Hm|apply str_bytes|exact Hk].
  - apply writable_set; [exact Hm|apply str_bytes|apply w_int; change (2 ^ 63)%Z with 9223372036854775808%Z; lia|discriminate].
Qed.
Lemma counts_storable : forall n first m d b, n < 2 ^ 63 -> first < 2 ^ 63 -> storable (OStream m d) -> N.of_nat (List.length b) < 2 ^ 63 ->
  storable (OStream (set_counts n first m) b).
Proof.
  intros n first m d b Hn Hf H Hb. inversion H as [o Ho|m' d' Hw Hl Hd]; subst; [inversion Ho|]. apply st_stream; [apply set_counts_writable; assumption| |exact Hb].
  intros v Hv. apply Hl. assert (W := set_counts_writable n first m Hn Hf Hw). destruct (writable_parts _ W) as (S1 & K1 & _). destruct (writable_parts _ Hw) as (S2 & K2 & _).
  apply sm_find_in in Hv; auto using length_bytes. rewrite counts_find in Hv by auto using length_bytes.
  destruct (list_eq_dec N.eq_dec (str "Length") (str "First")); [discriminate|]. destruct (list_eq_dec N.eq_dec (str "Length") (str "N")); [discriminate|].
  apply sm_find_in; auto using length_bytes.
Qed.
(** correcting the length leaves the other entries alone *)
Lemma same_object_find : forall m m' d k, writable (ODict m) -> writable (ODict m') -> same_object (OStream m d) (OStream m' d) -> all_bytes k -> k <> str "Length" ->
  sm_find k m' = sm_find k m.
Proof.
  intros m m' d k Hm Hm' H Hk Hne. inversion H as [o Ho|a b c H1 H2]; subst; [inversion Ho|].
  destruct (writable_parts _ Hm) as (S1 & K1 & _). destruct (writable_parts _ Hm') as (S2 & K2 & _).
  destruct (sm_find k m) as [v|] eqn:E.
  - apply sm_find_in; auto. apply H1; [exact Hne|]. apply sm_find_in; auto.
  - destruct (sm_find k m') as [v|] eqn:E'; [|reflexivity]. apply sm_find_in in E'; auto. apply H1 in E'; [|exact Hne]. apply sm_find_in in E'; auto. congruence.
Qed.

(** ** reading the section *)
Lemma int_values_ok : forall l, int_values (map OInt l) = Ok l.
Proof. induction l as [|z l IH]; [reflexivity|]. cbn [map int_values int_value rbind]. rewrite IH. reflexivity. Qed.
Lemma remove_writable : forall k m, writable (ODict m) -> writable (ODict (sm_remove k m)).
Proof.
  intros k m H. destruct (writable_parts _ H) as (S1 & K1 & F1). apply writable_from; [apply sm_remove_sorted, S1|apply sm_remove_forall, K1|apply sm_remove_forall, F1].
Qed.
Lemma ints_writable : forall l, Forall (fun z => (- 2 ^ 63 <= z < 2 ^ 63)%Z) l -> writable (OArr (map OInt l)).
Proof.
  intros l H. apply w_arr. apply Forall_forall. intros o Ho. apply in_map_iff in Ho. destruct Ho as (z & <- & Hz). rewrite Forall_forall in H. apply w_int.
  specialize (H z Hz). change (2 ^ 63)%Z with 9223372036854775808%Z in *. lia.
Qed.
Lemma header_writable : forall hdr size w1 w2 w3 index, writable (ODict hdr) -> size < 2 ^ 63 -> (0 <= w1 <= 8)%Z -> (0 <= w2 <= 8)%Z -> (0 <= w3 <= 8)%Z ->
  Forall (fun n => n < 2 ^ 63) index -> writable (ODict (xref_header hdr size (w1, w2, w3) index)).
Proof.
  intros hdr size w1 w2 w3 index H Hs H1 H2 H3 Hi. unfold xref_header, replace_entry, set_size. change (2 ^ 63) with 9223372036854775808 in *. apply remove_writable.
  apply writable_set; [|apply str_bytes| |discriminate].
  - apply writable_set; [|apply str_bytes| |discriminate].
    + apply writable_set; [exact H|apply str_bytes|apply w_int; change (2 ^ 63)%Z with 9223372036854775808%Z; lia|discriminate].
    + change [OInt w1; OInt w2; OInt w3] with (map OInt [w1; w2; w3]). apply ints_writable. change (2 ^ 63)%Z with 9223372036854775808%Z. repeat constructor; lia.
  - replace (map (fun n => OInt (Z.of_N n)) index) with (map OInt (map Z.of_N index)) by (rewrite map_map; reflexivity). apply ints_writable.
    apply Forall_forall. intros z Hz. apply in_map_iff in Hz. destruct Hz as (n & <- & Hn). rewrite Forall_forall in Hi. specialize (Hi n Hn).
    change (2 ^ 63)%Z with 9223372036854775808%Z. lia.
Qed.
Lemma header_find : forall hdr size w1 w2 w3 index k, writable (ODict hdr) -> size < 2 ^ 63 -> (0 <= w1 <= 8)%Z -> (0 <= w2 <= 8)%Z -> (0 <= w3 <= 8)%Z ->
  Forall (fun n => n < 2 ^ 63) index -> all_bytes k ->
  sm_find k (xref_header hdr size (w1, w2, w3) index) =
    if list_eq_dec N.eq_dec k (str "DecodeParms") then None
    else if list_eq_dec N.eq_dec k (str "Index") then Some (OArr (map (fun n => OInt (Z.of_N n)) index))
    else if list_eq_dec N.eq_dec k (str "W") then Some (OArr [OInt w1; OInt w2; OInt w3])
    else if list_eq_dec N.eq_dec k (str "Size") then Some (OInt (Z.of_N size))
    else sm_find k hdr.
Proof.
  intros hdr size w1 w2 w3 index k H Hs H1 H2 H3 Hi Hk. unfold xref_header, replace_entry, set_size. change (2 ^ 63) with 9223372036854775808 in *.
  assert (W1 : writable (ODict (sm_insert (str "Size") (OInt (Z.of_N size)) (sm_remove (str "Size") hdr)))).
  { apply writable_set; [exact H|apply str_bytes|apply w_int; change (2 ^ 63)%Z with 9223372036854775808%Z; lia|discriminate]. }
  match goal with |- context [sm_insert (str "W") ?a (sm_remove (str "W") ?b)] => assert (W2 : writable (ODict (sm_insert (str "W") a (sm_remove (str "W") b)))) end.
  { apply writable_set; [exact W1|apply str_bytes| |discriminate]. change [OInt w1; OInt w2; OInt w3] with (map OInt [w1; w2; w3]). apply ints_writable.
    change (2 ^ 63)%Z with 9223372036854775808%Z. repeat constructor; lia. }
  match goal with |- context [sm_insert (str "Index") ?a (sm_remove (str "Index") ?b)] => assert (W3 : writable (ODict (sm_insert (str "Index") a (sm_remove (str "Index") b)))) end.
  { apply writable_set; [exact W2|apply str_bytes| |discriminate].
    replace (map (fun n => OInt (Z.of_N n)) index) with (map OInt (map Z.of_N index)) by (rewrite map_map; reflexivity). apply ints_writable.
    apply Forall_forall. intros z Hz. apply in_map_iff in Hz. destruct Hz as (n & <- & Hn). rewrite Forall_forall in Hi. specialize (Hi n Hn).
    change (2 ^ 63)%Z with 9223372036854775808%Z. lia. }
  destruct (writable_parts _ W3) as (S3 & K3 & _). rewrite sm_find_remove by (first [exact S3|exact K3|exact Hk|apply str_bytes]).
  destruct (list_eq_dec N.eq_dec k (str "DecodeParms")); [reflexivity|].
  rewrite find_set by (first [exact W2|exact Hk|apply str_bytes]). destruct (list_eq_dec N.eq_dec k (str "Index")); [reflexivity|].
  rewrite find_set by (first [exact W1|exact Hk|apply str_bytes]). destruct (list_eq_dec N.eq_dec k (str "W")); [reflexivity|].
  rewrite find_set by (first [exact H|exact Hk|apply str_bytes]). reflexivity.
Qed.
Lemma stream_rows_index : forall w l idx size prev index data, idx < 2 ^ 63 -> size + N.of_nat (List.length l) < 2 ^ 63 -> Forall (fun e => xnum e < 2 ^ 63) l ->
  stream_rows w l idx size prev = Ok (index, data) -> Forall (fun n => n < 2 ^ 63) index.
Proof.
  intros w. induction l as [|e l IH]; intros idx size prev index data Hi Hs Hf H; cbn [stream_rows] in H.
  - apply Ok_inj in H. injection H as <- <-. repeat constructor; [exact Hi|]. cbn in Hs. lia.
  - inversion Hf as [|? ? H1 H2]; subst. apply rbind_ok in H. destruct H as ([[closed i'] s'] & Ec & H). apply rbind_ok in H. destruct H as (row & _ & H).
    apply rbind_ok in H. destruct H as ([ix dt] & Er & H). apply Ok_inj in H. injection H as <- <-.
    change (2 ^ 63) with 9223372036854775808 in *. cbn [List.length] in Hs.
    assert (Hc : Forall (fun n => n < 9223372036854775808) closed /\ i' < 9223372036854775808 /\ s' <= size).
    { destruct (size =? 0) eqn:E; [apply Ok_inj in Ec; injection Ec as <- <- <-; repeat split; auto; lia|].
      apply rbind_ok in Ec. destruct Ec as (next & _ & Ec). destruct (xnum e =? next); apply Ok_inj in Ec; injection Ec as <- <- <-; repeat split; auto; try lia.
      repeat constructor; [exact Hi|lia]. }
    destruct Hc as (C1 & C2 & C3). apply Forall_app. split; [exact C1|]. eapply (IH i' (s' + 1)); [| | |exact Er]; auto; lia.
Qed.
Lemma content_index : forall w t w' index data, N.of_nat (List.length t) < 2 ^ 63 -> Forall (fun e => xnum e < 2 ^ 63) t ->
  recalculate_content w t = Ok (w', index, data) -> Forall (fun n => n < 2 ^ 63) index.
Proof.
  intros [[w1 w2] w3] t w' index data Hl Hf H. unfold recalculate_content in H. apply rbind_ok in H. destruct H as ([m2 m3] & _ & H).
  apply rbind_ok in H. destruct H as (w2' & _ & H). apply rbind_ok in H. destruct H as (w3' & _ & H). apply rbind_ok in H. destruct H as ([ix dt] & E & H).
  apply Ok_inj in H. injection H as _ <- _. eapply stream_rows_index; [| | |exact E]; auto. reflexivity.
Qed.
Lemma entry_single : forall E n g x, xsorted E -> (entry_of [E] n g = Some x <-> In x E /\ xnum x = n /\ xgen x = g).
Proof.
  intros E n g x Hs. cbn [entry_of]. split.
  - destruct (find (fun e => xnum e =? n) E) as [e|] eqn:Ef; [|discriminate]. destruct (xgen e =? g) eqn:Eg; [|discriminate]. intros H. injection H as <-.
    apply find_some in Ef. destruct Ef as (A & B). repeat split; [exact A|lia|lia].
  - intros (A & <- & <-). rewrite (sorted_find E x Hs A). rewrite N.eqb_refl. reflexivity.
Qed.

(** ** the whole file *)
Lemma self_spec : forall self e, is_self (Some self) e = true <-> (xnum e, xgen e) = self.
Proof.
  intros self e. destruct self as [n g]. cbn [is_self]. rewrite andb_true_iff, !N.eqb_eq. split; [intros (-> & ->); reflexivity|intros H; injection H; auto].
Qed.
Section Main.
Variable supported : header -> Prop.
Variables encode decode : header -> bytes -> res bytes.
Hypothesis CD : codec supported encode decode.
Variable rl : N -> N -> res Z.
Variable self : N * N.
Variable hdr : header.
Variable l : list (xentry * obj).
Hypothesis D : document supported self hdr l.

Notation todo := (fst (rebuild_section (compressed l))).
Notation part k := (entries_of_stream k (compressed l)).

Lemma doc_nodup : NoDup (map (fun p => xnum (fst p)) l).
Proof.
  generalize (dc_sorted _ _ _ _ D). generalize (map (fun p : xentry * obj => xnum (fst p)) l). intros ns H. induction H as [|n ns H IH Ha]; constructor; [|exact IH].
  intros Hin. rewrite Forall_forall in Ha. specialize (Ha n Hin). lia.
Qed.
Lemma same_number : forall e o e' o', In (e, o) l -> In (e', o') l -> xnum e = xnum e' -> e = e' /\ o = o'.
Proof.
  intros e o e' o' H H' En. assert (Hs := dc_sorted _ _ _ _ D). clear - H H' En Hs. induction l as [|[x y] t IH]; [destruct H|].
  cbn [map fst] in Hs. inversion Hs as [|? ? H1 H2]; subst. rewrite Forall_forall in H2.
  assert (Hlt : forall a b, In (a, b) t -> xnum x < xnum a) by (intros a b Hab; apply H2; apply (in_map (fun p : xentry * obj => xnum (fst p)) _ _ Hab)).
  destruct H as [H|H], H' as [H'|H'].
  - injection H as <- <-. injection H' as <- <-. auto.
  - injection H as <- <-. specialize (Hlt _ _ H'). lia.
  - injection H' as <- <-. specialize (Hlt _ _ H). lia.
  - apply IH; assumption.
Qed.
Lemma part_in : forall k c, In c (part k) <-> In c (compressed l) /\ ce_stream c = k.
Proof. intros k c. unfold entries_of_stream. rewrite filter_In. split; intros (A & B); (split; [exact A|lia]). Qed.
Lemma part_ok : forall k, Forall (fun c => writable (ce_obj c) /\ ce_num c < 2 ^ 63) (part k).
Proof.
  intros k. apply Forall_forall. intros c Hc. apply part_in in Hc. destruct Hc as (Hc & _). apply compressed_in in Hc. destruct Hc as (e & o & Hin & Ed & En & ->).
  destruct (dc_entries _ _ _ _ D _ _ Hin) as (A & _ & B). rewrite Ed in B. split; [apply B|congruence].
Qed.
Lemma part_nodup : forall k, NoDup (map ce_num (part k)).
Proof.
  intros k. assert (H := compressed_nums l (dc_sorted _ _ _ _ D)). unfold entries_of_stream. revert H. generalize (compressed l). clear. intros cs H.
  induction cs as [|c cs IH]; [constructor|]. cbn [map] in H. inversion H as [|? ? H1 H2]; subst. cbn [filter]. destruct (ce_stream c =? k); [|auto].
  cbn [map]. constructor; [|auto]. intros Hi. apply H1. apply in_map_iff in Hi. destruct Hi as (x & <- & Hx). apply in_map. apply filter_In in Hx. apply Hx.
Qed.
Lemma todo_in : forall k c, In (k, c) todo <-> (exists x, In x (part k)) /\ c = rebuild_object_stream (part k).
Proof.
  intros k c. cbn [rebuild_section fst]. rewrite in_map_iff. split.
  - intros (n & E & Hn). injection E as -> <-. split; [|reflexivity]. apply stream_numbers_spec in Hn. destruct Hn as (_ & x & Hx & <-). exists x. apply part_in. auto.
  - intros ((x & Hx) & ->). exists k. split; [reflexivity|]. apply stream_numbers_spec. split; [intros []|]. apply part_in in Hx. exists x. exact Hx.
Qed.
Lemma part_size : forall k n first body, rebuild_object_stream (part k) = (n, first, body) -> (exists x, In x (part k)) ->
  n < 2 ^ 63 /\ first < 2 ^ 63 /\ N.of_nat (List.length body) < 2 ^ 63.
Proof.
  intros k n first body H (x & Hx). assert (Hne : part k <> []) by (intros E; rewrite E in Hx; destruct Hx). assert (Hok := part_ok k).
  assert (Hsz : N.of_nat (List.length body) < 2 ^ 63).
  { eapply rebuilt_size; [exact Hne| | |exact H].
    - revert Hok. apply Forall_impl. tauto.
    - assert (T := dc_text _ _ _ _ D). destruct (ctext_compressed l) as (T1 & T2). assert (T3 := ctext_filter (fun e => ce_stream e =? k) (compressed l)).
      assert (T4 := filter_length_le _ (fun e => ce_stream e =? k) (compressed l)). unfold entries_of_stream. lia. }
  destruct (read_rebuilt rl (part k) n first body Hne Hok H Hsz) as (_ & B2 & B3 & _). auto.
Qed.
Lemma object_stream_part : forall k, is_object_stream l k <-> exists x, In x (part k).
Proof.
  intros k. split.
  - intros (e & o & i & Hin & Ed). exists {| ce_num := xnum e; ce_stream := k; ce_index := i; ce_obj := o |}. apply part_in. split; [|reflexivity].
    apply compressed_in. exists e, o. cbn [ce_stream ce_index ce_num ce_obj]. auto.
  - intros (x & Hx). apply part_in in Hx. destruct Hx as (Hx & <-). apply compressed_in in Hx. destruct Hx as (e & o & A & B & _). exists e, o, (ce_index x). auto.
Qed.

(** what stands in the file for an entry *)
Record written (td : list (N * (N * N * bytes))) (file : bytes) (e : xentry) (o : obj) (e2 : xentry) (o2 : obj) : Prop := {
  wr_num : xnum e2 = xnum e;
  wr_gen : xgen e2 = xgen e;
  wr_entry : if is_self (Some self) e then e2 = e
             else match xdata e with
                  | KUsed _ _ => exists p, xdata e2 = KUsed (Z.of_N p) true /\ starts_at file (Z.of_N p) (write_object (xnum e) (xgen e) o2)
                  | _ => e2 = e
                  end;
  wr_obj : match xdata e with
           | KUsed _ _ => exists o', refilled encode td e o o' /\ same_object o' o2 /\ stored o2
           | _ => o2 = o
           end
}.
Lemma refilled_ok : forall e o o', In (e, o) l -> refilled encode todo e o o' ->
  match xdata e with KUsed _ _ => storable o' | KComp _ _ => o' = o /\ is_stream o' = false | KFree _ => o' = o end.
Proof.
  intros e o o' Hin H. destruct (dc_entries _ _ _ _ D _ _ Hin) as (A & B & C). destruct H as [(-> & _)|(n & first & body & m & d & b & off & u & H1 & H2 & H3 & H4 & H5 & H6)].
  - destruct (xdata e); [reflexivity|apply C|split; [reflexivity|apply writable_not_stream, C]].
  - rewrite H3 in *. apply todo_in in H1. destruct H1 as (H1 & Er). destruct (part_size _ _ _ _ (eq_sym Er) H1) as (S1 & S2 & _). subst o o'.
    eapply counts_storable; [exact S1|exact S2|apply C|]. eapply cd_size; [exact CD|exact H5].
Qed.

Lemma written_file : forall v file, write_stream_document encode v self hdr l = Ok file ->
  exists body l2 w' index data enc stm,
    (let m := xref_header hdr (N.of_nat (List.length l)) w' index in
     encode m data = Ok enc /\ recalculate_length (OStream m enc) = Ok stm /\
     file = write_header v ++ body ++ write_object (fst self) (snd self) stm ++ write_xref_offset (Z.of_nat (List.length (write_header v ++ body)))) /\
    (exists w, recalculate_widths (map fst l2) = Ok w /\ recalculate_content w (map fst l2) = Ok (w', index, data)) /\
    Forall2 (fun a b => written todo file (fst a) (snd a) (fst b) (snd b)) l l2.
Proof.
  intros v file H. unfold write_stream_document in H. apply rbind_ok in H. destruct H as (l0 & E0 & H).
  assert (F0 := refill_ok encode todo l l0 (rebuilt_keys _) doc_nodup E0). apply rbind_ok in H. destruct H as (l1 & E1 & H).
  destruct (lengths_ok l0) as (l1' & E1' & F1).
  { intros e o' Hin. assert (Hx : exists o, In (e, o) l /\ refilled encode todo e o o').
    { clear - F0 Hin. revert F0. generalize todo. intros td F0. induction F0 as [|[a1 a2] [b1 b2] x y (P1 & P2) F IH]; [destruct Hin|]. cbn [fst snd] in *. destruct Hin as [E|Hin].
      - injection E as -> ->. subst a1. exists a2. split; [left; reflexivity|exact P2].
      - destruct (IH Hin) as (o & A & B). exists o. split; [right; exact A|exact B]. }
    destruct Hx as (o & Hino & Hr). assert (R := refilled_ok e o o' Hino Hr). destruct (xdata e); [exact I|exact R|apply R]. }
  rewrite E1 in E1'. apply Ok_inj in E1'. subst l1'.
  destruct (write_objects (Some self) (N.of_nat (List.length (write_header v))) l1) as [body l2] eqn:Ew.
  apply rbind_ok in H. destruct H as (w & Ew1 & H). apply rbind_ok in H. destruct H as ([[w' index] data] & Ec & H).
  apply rbind_ok in H. destruct H as (enc & Ee & H). apply rbind_ok in H. destruct H as (stm & Es & H). apply Ok_inj in H.
  set (after := write_object (fst self) (snd self) stm ++ write_xref_offset (Z.of_nat (List.length (write_header v ++ body)))) in *.
  assert (F2 := write_objects_self (Some self) l1 (N.of_nat (List.length (write_header v))) (write_header v) after eq_refl). rewrite Ew in F2. cbn [fst snd] in F2. rewrite H in F2.
  assert (L0 : List.length l0 = List.length l) by (clear - F0; induction F0; cbn; auto).
  assert (L1 : List.length l1 = List.length l0) by (clear - F1; induction F1; cbn; auto).
  assert (L2 : List.length l2 = List.length l1) by (clear - F2; induction F2; cbn; auto).
  exists body, l2, w', index, data, enc, stm. split; [|split].
  - unfold recalculate_size in *. rewrite map_length in *. rewrite L2, L1, L0 in *. cbv zeta. split; [exact Ee|]. split; [exact Es|]. symmetry. exact H.
  - exists w. auto.
  - assert (Fu : forall e o, In (e, o) l -> match xdata e with KUsed _ u => u = true | _ => True end).
    { intros e o Hin. destruct (dc_entries _ _ _ _ D _ _ Hin) as (_ & _ & C). destruct (xdata e); [exact I|apply C|exact I]. }
    assert (Fk : forall e o, In (e, o) l -> forall o', refilled encode todo e o o' -> match xdata e with KUsed _ _ => True | _ => o' = o end).
    { intros e o Hin o' Hr. assert (R := refilled_ok e o o' Hin Hr). destruct (xdata e); [exact R|exact I|apply R]. }
    clear - F0 F1 F2 Fu Fk. revert F0 Fk. generalize todo. intros td F0 Fk. revert l1 l2 F1 F2. induction F0 as [|[e o] [e' o'] x y (P1 & P2) F IH]; intros l1 l2 F1 F2.
    + inversion F1; subst. inversion F2; subst. constructor.
    + inversion F1 as [|? [e1 o1] ? t1 (Q1 & Q2) G1]; subst. inversion F2 as [|? [e2 o2] ? t2 (R1 & R2 & R3 & R4) G2]; subst. cbn [fst snd] in *. subst e' e1 o2.
      constructor; [|eapply IH; [| |exact G1|exact G2]; [intros e0 o0 Hi; apply (Fu e0 o0); right; exact Hi|intros e0 o0 Hi; apply (Fk e0 o0); right; exact Hi]].
      cbn [fst snd]. specialize (Fu e o (or_introl eq_refl)). specialize (Fk e o (or_introl eq_refl) o' P2). constructor; [exact R1|exact R2| |].
      * destruct (is_self (Some self) e); [exact R4|]. destruct (xdata e) as [|off u|]; [exact R4| |exact R4]. subst u. exact R4.
      * destruct (xdata e); [congruence| |congruence]. exists o'. destruct Q2 as (Q2 & Q3). auto.
Qed.

Lemma content_widths : forall w1 w2 w3 t w' index data, Forall entry_in_range t -> (0 <= w2 <= 8)%Z -> (0 <= w3 <= 8)%Z ->
  recalculate_content (w1, w2, w3) t = Ok (w', index, data) -> exists w2' w3', w' = (w1, w2', w3') /\ (0 <= w2' <= 8)%Z /\ (0 <= w3' <= 8)%Z.
Proof.
  intros w1 w2 w3 t w' index data Hr H2 H3 H. unfold recalculate_content in H. destruct (max_bytes_ok t 0 0 Hr ltac:(lia) ltac:(lia)) as (m2 & m3 & Em & B2 & B3 & _).
  rewrite Em in H. cbn [rbind] in H. destruct (raise_width_ok m2 w2 ltac:(lia) H2) as (w2' & E2 & R2 & _). destruct (raise_width_ok m3 w3 ltac:(lia) H3) as (w3' & E3 & R3 & _).
  rewrite E2, E3 in H. cbn [rbind] in H. apply rbind_ok in H. destruct H as ([ix dt] & _ & H). apply Ok_inj in H. injection H as <- _ _. exists w2', w3'. auto.
Qed.
Lemma starts_below : forall file p n g o, starts_at file p (write_object n g o) -> (0 <= p < Z.of_nat (List.length file))%Z.
Proof.
  intros file p n g o (H0 & before & after & -> & <-). rewrite !app_length. unfold write_object. rewrite !app_length. cbn [List.length]. lia.
Qed.
Lemma starts_skip : forall file p text, starts_at file p text -> exists rest, skipn (Z.to_nat p) file = text ++ rest.
Proof.
  intros file p text (H0 & before & after & -> & <-). rewrite Nat2Z.id. exists after. apply skipn_exact.
Qed.
(** the object of the section's own entry *)
Lemma self_entry : forall e o, In (e, o) l -> (xnum e, xgen e) = self -> exists off, xdata e = KUsed off true /\ (0 <= off < 2 ^ 63)%Z.
Proof.
  intros e o Hin He. destruct (dc_self _ _ _ _ D) as (o' & off & Hs). rewrite <- He in Hs. cbn [fst snd] in Hs.
  destruct (same_number _ _ _ _ Hin Hs eq_refl) as (-> & _). exists off. split; [reflexivity|]. destruct (dc_entries _ _ _ _ D _ _ Hs) as (_ & _ & _ & _ & C). cbn [xnum xgen] in C. apply C. exact He.
Qed.
Lemma written_range : forall file e o e2 o2, (Z.of_nat (List.length file) < 2 ^ 63)%Z -> In (e, o) l -> written todo file e o e2 o2 -> entry_in_range e2 /\ reread e2 = e2.
Proof.
  intros file e o e2 o2 Hlen Hin [W1 W2 W3 W4]. destruct (dc_entries _ _ _ _ D _ _ Hin) as (A & B & C).
  destruct (is_self (Some self) e) eqn:Es.
  - subst e2. apply self_spec in Es. destruct (self_entry e o Hin Es) as (off & Ed & Ho). unfold entry_in_range, reread. rewrite Ed.
    split; [auto|]. destruct e as [en eg ed]; cbn [xnum xgen xdata] in *. subst. reflexivity.
  - destruct (xdata e) as [next|off u|k i] eqn:Ed.
    + subst e2. unfold entry_in_range, reread. rewrite Ed. auto.
    + destruct W3 as (p & Ep & Hp). apply starts_below in Hp. unfold entry_in_range, reread. rewrite Ep. split; [rewrite W1, W2; repeat split; auto; lia|].
      destruct e2 as [en2 eg2 ed2]; cbn [xnum xgen xdata] in *. subst. reflexivity.
    + subst e2. destruct C as (C1 & C2 & C3 & C4 & m & d & (off & Hu) & _). destruct (dc_entries _ _ _ _ D _ _ Hu) as (K & _). cbn [xnum] in K.
      unfold entry_in_range, reread. rewrite Ed. split; [auto|]. destruct e as [en eg ed]; cbn [xnum xgen xdata] in *. subst. reflexivity.
Qed.
Lemma load_ext : forall m m' b, sm_find (str "First") m' = sm_find (str "First") m -> sm_find (str "N") m' = sm_find (str "N") m ->
  load_object_stream parser_dictionary rl m' b = load_object_stream parser_dictionary rl m b.
Proof. intros m m' b H1 H2. unfold load_object_stream, find_unsigned. rewrite H1, H2. reflexivity. Qed.

(** the object stream [k] in the file *)
Lemma stream_loaded : forall file k, is_object_stream l k -> forall e o e2 o2, In (e, o) l -> xnum e = k -> written todo file e o e2 o2 ->
  exists m2 d2 out, o2 = OStream m2 d2 /\ xgen e = 0 /\ is_self (Some self) e = false /\ (exists off u, xdata e = KUsed off u) /\
    objects_in rl decode o2 = Ok out /\ holds (map as_member (part k)) out /\
    (exists m d, o = OStream m d /\ forall x, all_bytes x -> x <> str "Length" -> x <> str "N" -> x <> str "First" -> sm_find x m2 = sm_find x m).
Proof.
  intros file k Hk e o e2 o2 Hin En [_ _ _ W4]. destruct Hk as (ec & oc & ic & Hc & Edc). destruct (dc_entries _ _ _ _ D _ _ Hc) as (_ & _ & C). rewrite Edc in C.
  destruct C as (_ & _ & _ & Cs & m & d & (off & Hu) & Hsup). destruct (same_number _ _ _ _ Hin Hu ltac:(cbn [xnum]; exact En)) as (-> & ->). cbn [xnum xgen xdata] in *.
  assert (Hp : exists x, In x (part k)) by (apply object_stream_part; exists ec, oc, ic; auto).
  destruct W4 as (o' & Hr & Hso & Hst). destruct Hr as [(_ & Hno)|(n & first & body & m' & d' & b & off' & u' & R1 & _ & _ & R4 & R5 & ->)].
  { exfalso. apply (Hno (rebuild_object_stream (part k))). cbn [xnum]. apply todo_in. auto. }
  injection R4 as <- <-. cbn [xnum] in R1. apply todo_in in R1. destruct R1 as (_ & Er). symmetry in Er. destruct (part_size _ _ _ _ Er Hp) as (S1 & S2 & S3).
  destruct (dc_entries _ _ _ _ D _ _ Hu) as (_ & _ & _ & Hstor & _). inversion Hstor as [x Hx|x y Hw Hl Hd]; subst; [inversion Hx|].
  assert (W := set_counts_writable n first m S1 S2 Hw).
  inversion Hso as [x Hx|x m2 y H1 H2]; subst; [inversion Hx|]. assert (W2 : writable (ODict m2)) by (inversion Hst as [x Hx|x y Hy _]; subst; [inversion Hx|exact Hy]).
  assert (Hf : forall k', all_bytes k' -> k' <> str "Length" -> sm_find k' m2 = sm_find k' (set_counts n first m)) by (intros k' Hb Hne; eapply same_object_find; eauto).
  assert (Hne : part k <> []) by (destruct Hp as (x & Hx); intros E; rewrite E in Hx; destruct Hx).
  destruct (C22_object_stream_roundtrip rl (part k) m n first body Hne (part_ok k) Hw Er S3) as (out & Hload & Hholds).
  exists m2, b, out. split; [reflexivity|]. split; [reflexivity|]. split.
  { destruct (is_self (Some self) _) eqn:E; [|reflexivity]. apply self_spec in E. cbn [xnum xgen] in E. rewrite <- E in Cs. cbn [fst] in Cs. congruence. }
  split; [eauto|]. split.
  - cbn [objects_in]. rewrite (cd_back _ _ _ CD (set_counts n first m) m2 body b); [| | |exact R5].
    + cbn [rbind]. rewrite (load_ext (set_counts n first m) m2); [exact Hload| |]; apply Hf; try apply str_bytes; discriminate.
    + apply (cd_same _ _ _ CD m); [|exact Hsup]. split; rewrite counts_find by (auto; apply str_bytes); reflexivity.
    + split; apply Hf; try apply str_bytes; discriminate.
  - split; [exact Hholds|]. exists m, d. split; [reflexivity|]. intros x Hx N1 N2 N3. rewrite Hf by assumption. rewrite counts_find by assumption.
    destruct (list_eq_dec N.eq_dec x (str "First")); [congruence|]. destruct (list_eq_dec N.eq_dec x (str "N")); [congruence|]. reflexivity.
Qed.

Lemma starts_more : forall file suffix p text, starts_at file p text -> starts_at (file ++ suffix) p text.
Proof. intros file suffix p text (H0 & before & after & -> & E). split; [exact H0|]. exists before, (after ++ suffix). split; [rewrite <- !app_assoc; reflexivity|exact E]. Qed.
(** the file may be followed by anything *)
Lemma stream_file_behind : forall v file, write_stream_document encode v self hdr l = Ok file -> (Z.of_nat (List.length file) < 2 ^ 63)%Z ->
  exists offset E m d,
    read_header file = Ok v /\ last_xref_offset file = Ok offset /\ (0 <= offset < 2 ^ 63)%Z /\ writable (ODict m) /\ xsorted E /\ sm_find (str "Prev") m = None /\
    sm_find (str "Size") m = Some (OInt (Z.of_nat (List.length l))) /\
    (forall k, all_bytes k -> ~ In k own_keys -> sm_find k m = sm_find k hdr) /\
    (forall k, object_stream [E] k -> is_object_stream l k) /\
    (forall x, In x E -> exists e o, In (e, o) l /\ xnum x = xnum e /\ xgen x = xgen e) /\
    forall suffix,
    let read_at := object_at rl (file ++ suffix) self (OStream m d) in
    let inside := objects_in rl decode in
    (forall c, read_section parser_dictionary decode (file ++ suffix) c offset = Ok (c, {| s_kind := SStream; s_entries := E; s_hybrid := None; s_trailer := m |})) /\
    orderly [E] read_at inside /\
    (forall k t n o, is_object_stream l k -> stream_holds [E] read_at inside k t -> In (n, o) t -> exists e i, In (e, o) l /\ xnum e = n /\ xdata e = KComp k i) /\
    (forall n g, (forall e o, In (e, o) l -> (xnum e, xgen e) <> (n, g)) -> original [E] read_at inside n g ONull) /\
    (forall e o, In (e, o) l ->
      match xdata e with
      | KFree _ => original [E] read_at inside (xnum e) (xgen e) ONull
      | KUsed _ _ =>
          if is_self (Some self) e then original [E] read_at inside (xnum e) (xgen e) (OStream m d)
          else exists o', original [E] read_at inside (xnum e) (xgen e) o' /\
            (~ is_object_stream l (xnum e) -> same_object o o') /\
            (is_object_stream l (xnum e) -> exists m1 d1 m2 d2, o = OStream m1 d1 /\ o' = OStream m2 d2 /\
               forall x, all_bytes x -> x <> str "Length" -> x <> str "N" -> x <> str "First" -> sm_find x m2 = sm_find x m1)
      | KComp _ _ => original [E] read_at inside (xnum e) (xgen e) o
      end).
Proof.
  intros v file Hw Hlen. destruct (written_file v file Hw) as (body & l2 & w' & index & data & enc & stm & (Ee & Es & Efile) & (w & Ew & Ec) & F). clear Hw.
  set (E := map fst l2). fold E in Ew, Ec.
  assert (Lall : List.length E = List.length l) by (unfold E; rewrite map_length; clear - F; induction F; cbn; auto).
  assert (Hnums : map (fun p => xnum (fst p)) l2 = map (fun p => xnum (fst p)) l) by (apply (Forall2_nums _ _ _ (fun a b X => wr_num _ _ _ _ _ _ X) F)).
  assert (Hsort : xsorted E) by (apply sorted_nums; rewrite Hnums; apply (dc_sorted _ _ _ _ D)).
  assert (Fb : forall e2 o2, In (e2, o2) l2 -> exists e o, In (e, o) l /\ written todo file e o e2 o2).
  { intros e2 o2 Hin. clear - F Hin. revert F. generalize todo. intros td F. induction F as [|[a1 a2] [b1 b2] x y P F IH]; [destruct Hin|]. cbn [fst snd] in *. destruct Hin as [X|Hin].
    - injection X as -> ->. exists a1, a2. split; [left; reflexivity|exact P].
    - destruct (IH Hin) as (e & o & A & B). exists e, o. split; [right; exact A|exact B]. }
  assert (Ff : forall e o, In (e, o) l -> exists e2 o2, In (e2, o2) l2 /\ written todo file e o e2 o2).
  { intros e o Hin. destruct (Forall2_In _ _ _ _ _ _ F Hin) as ([e2 o2] & A & B). exists e2, o2. auto. }
  assert (Hrange : Forall entry_in_range E).
  { apply Forall_forall. intros x Hx. unfold E in Hx. apply in_map_iff in Hx. destruct Hx as ([e2 o2] & <- & Hin). destruct (Fb _ _ Hin) as (e & o & A & B). apply (written_range file e o e2 o2 Hlen A B). }
  assert (Hreread : map reread E = E).
  { rewrite <- (map_id E) at 2. apply map_ext_in. intros x Hx. unfold E in Hx. apply in_map_iff in Hx. destruct Hx as ([e2 o2] & <- & Hin). destruct (Fb _ _ Hin) as (e & o & A & B). apply (written_range file e o e2 o2 Hlen A B). }
  assert (Hfirst : match E with [] => True | e :: _ => xnum e = 0 end).
  { destruct (dc_first _ _ _ _ D) as (p & t & El & E0). clear - F El E0. rewrite El in F. inversion F as [|? b ? y P]; subst. unfold E. cbn [map]. rewrite (wr_num _ _ _ _ _ _ P). exact E0. }
  assert (Hne : E <> []).
  { destruct (dc_first _ _ _ _ D) as (p & t & El & _). intros X. rewrite X, El in Lall. discriminate. }
  assert (Hcount := dc_count _ _ _ _ D). rewrite <- Lall in Hcount.
  destruct (widths_ok E Hrange) as (w1 & w2 & w3 & Ew' & R1 & R2 & R3). rewrite Ew in Ew'. apply Ok_inj in Ew'. subst w. specialize (R1 Hne).
  destruct (content_roundtrip w1 w2 w3 E Hsort Hrange Hfirst Hcount (fun _ => R1) R2 R3) as (w2' & w3' & index' & data' & Ec' & Hparse).
  rewrite Ec in Ec'. apply Ok_inj in Ec'. injection Ec' as -> <- <-. rewrite Hreread in Hparse.
  destruct (content_widths _ _ _ _ _ _ _ Hrange R2 R3 Ec) as (x2 & x3 & Ex & X2 & X3). injection Ex as <- <-.
  assert (Hidx : Forall (fun n => n < 2 ^ 63) index).
  { eapply content_index; [| |exact Ec]; [rewrite Lall; assert (Hc := dc_count _ _ _ _ D); change (2 ^ 63) with 9223372036854775808; lia|].
    revert Hrange. apply Forall_impl. intros e (He & _). exact He. }
  assert (Hhw : writable (ODict hdr)) by (assert (X := dc_header _ _ _ _ D); inversion X as [x Hx|]; subst; [inversion Hx|assumption]).
  assert (Hsz : N.of_nat (List.length l) < 2 ^ 63) by (assert (Hc := dc_count _ _ _ _ D); change (2 ^ 63) with 9223372036854775808; lia).
  set (m0 := xref_header hdr (N.of_nat (List.length l)) (w1, w2', w3') index) in *.
  assert (Hm0 : writable (ODict m0)) by (apply header_writable; auto; lia).
  assert (Hm0f := fun k => header_find hdr (N.of_nat (List.length l)) w1 w2' w3' index k Hhw Hsz ltac:(lia) X2 X3 Hidx). fold m0 in Hm0f.
  assert (Hst0 : storable (OStream m0 enc)).
  { apply st_stream; [exact Hm0| |eapply cd_size; [exact CD|exact Ee]]. intros x Hx. assert (X := dc_header _ _ _ _ D). inversion X as [y Hy|y z _ Hl _]; subst; [inversion Hy|]. apply Hl.
    destruct (writable_parts _ Hm0) as (S1 & K1 & _). destruct (writable_parts _ Hhw) as (S2 & K2 & _). apply sm_find_in in Hx; auto using length_bytes.
    rewrite Hm0f in Hx by exact length_bytes. apply sm_find_in; auto using length_bytes. }
  destruct (recalculate_length_ok _ Hst0) as (stm' & Es' & Hso & Hstd). rewrite Es in Es'. apply Ok_inj in Es'. subst stm'.
  inversion Hso as [x Hx|x m y H1 H2 T1 T2]; subst x; [inversion Hx|]. subst y stm. 
  assert (Hmw : writable (ODict m)) by (inversion Hstd as [x Hx|x y Hy _]; subst; [inversion Hx|exact Hy]).
  assert (Hmf : forall k, all_bytes k -> k <> str "Length" -> sm_find k m = sm_find k m0) by (intros k Hb Hk; eapply same_object_find; eauto).
  assert (Hdec : decode m enc = Ok data).
  { apply (cd_back _ _ _ CD m0 m data enc); [| |exact Ee].
    - apply (cd_same _ _ _ CD (sm_remove (str "DecodeParms") hdr)); [|apply (dc_supported _ _ _ _ D)]. destruct (writable_parts _ Hhw) as (S2 & K2 & _).
      split; rewrite Hm0f by apply str_bytes; rewrite sm_find_remove by (first [exact S2|exact K2|apply str_bytes]); reflexivity.
    - split; apply Hmf; try apply str_bytes; discriminate. }
  set (off := Z.of_nat (List.length (write_header v ++ body))) in *.
  destruct (dc_self _ _ _ _ D) as (oself & offs & Hself). destruct (dc_entries _ _ _ _ D _ _ Hself) as (Sn & Sg & _). cbn [xnum xgen] in Sn, Sg.
  assert (Hobj : forall k, object_stream [E] k -> is_object_stream l k).
  { intros k (t & x & i & [<-|[]] & Hx & Ed). unfold E in Hx. apply in_map_iff in Hx. destruct Hx as ([e2 o2] & X & Hin). cbn [fst] in X. subst e2. destruct (Fb _ _ Hin) as (e & o & A & B).
    exists e, o, i. split; [exact A|]. assert (Y := wr_entry _ _ _ _ _ _ B). destruct (is_self (Some self) e); [congruence|]. destruct (xdata e) as [|off0 u|] eqn:Ed2; [congruence| |congruence].
    destruct Y as (p & Ep & _). congruence. }
  assert (Hoff0 : (0 <= off < Z.of_nat (List.length file))%Z).
  { unfold off. rewrite Efile. generalize (write_header v). generalize (write_xref_offset off). intros r h. rewrite !app_length. unfold write_object. rewrite !app_length. cbn [List.length]. lia. }
  exists off, E, m, enc. split; [|split; [|split; [lia|split; [exact Hmw|split; [exact Hsort|split; [|split; [|split; [|split; [exact Hobj|split]]]]]]]]].
  - rewrite Efile. assert (Eh := header_roundtrip [] v (body ++ write_object (fst self) (snd self) (OStream m enc) ++ write_xref_offset off) ltac:(constructor)). exact Eh.
  - rewrite Efile. replace (write_header v ++ body ++ write_object (fst self) (snd self) (OStream m enc) ++ write_xref_offset off)
      with ((write_header v ++ body ++ write_object (fst self) (snd self) (OStream m enc)) ++ write_xref_offset off ++ []) by (rewrite app_nil_r, <- !app_assoc; reflexivity).
    apply last_offset_found; [|constructor|cbn; lia|lia]. right. unfold write_object.
    eexists (write_header v ++ body ++ to_string_N (fst self) ++ [32] ++ to_string_N (snd self) ++ [32] ++ str "obj" ++ [10] ++ to_pdf (OStream m enc) ++ [10] ++ str "endobj"), 10.
    split; [rewrite <- !app_assoc; reflexivity|exact white10].
  - rewrite Hmf by (first [apply str_bytes|discriminate]). rewrite Hm0f by apply str_bytes.
    destruct (list_eq_dec N.eq_dec (str "Prev") (str "DecodeParms")); [discriminate|]. destruct (list_eq_dec N.eq_dec (str "Prev") (str "Index")); [discriminate|].
    destruct (list_eq_dec N.eq_dec (str "Prev") (str "W")); [discriminate|]. destruct (list_eq_dec N.eq_dec (str "Prev") (str "Size")); [discriminate|].
    exact (dc_last _ _ _ _ D).
  - rewrite Hmf by (first [apply str_bytes|discriminate]). rewrite Hm0f by apply str_bytes. destruct (list_eq_dec N.eq_dec (str "Size") (str "DecodeParms")); [discriminate|].
    destruct (list_eq_dec N.eq_dec (str "Size") (str "Index")); [discriminate|]. destruct (list_eq_dec N.eq_dec (str "Size") (str "W")); [discriminate|].
    destruct (list_eq_dec N.eq_dec (str "Size") (str "Size")); [|congruence]. do 2 f_equal. lia.
  - intros k Hk Hn. unfold own_keys in Hn. cbn [In] in Hn. rewrite Hmf by (first [exact Hk|intros X; apply Hn; auto 6]). rewrite Hm0f by exact Hk.
    destruct (list_eq_dec N.eq_dec k (str "DecodeParms")) as [->|_]; [exfalso; apply Hn; auto 7|]. destruct (list_eq_dec N.eq_dec k (str "Index")) as [->|_]; [exfalso; apply Hn; auto 7|].
    destruct (list_eq_dec N.eq_dec k (str "W")) as [->|_]; [exfalso; apply Hn; auto 7|]. destruct (list_eq_dec N.eq_dec k (str "Size")) as [->|_]; [exfalso; apply Hn; auto 7|]. reflexivity.
  - intros x Hx. unfold E in Hx. apply in_map_iff in Hx. destruct Hx as ([e2 o2] & X & Hin). cbn [fst] in X. subst e2. destruct (Fb _ _ Hin) as (e & o & A & B).
    exists e, o. split; [exact A|]. split; [apply (wr_num _ _ _ _ _ _ B)|apply (wr_gen _ _ _ _ _ _ B)].
  - intros suffix. cbv zeta. set (whole := file ++ suffix). set (rest := write_xref_offset off ++ suffix).
  assert (Hskip : skipn (Z.to_nat off) whole = write_object (fst self) (snd self) (OStream m enc) ++ rest).
  { unfold whole. rewrite Efile. unfold off, rest. rewrite Nat2Z.id, <- !app_assoc, app_assoc. apply skipn_exact. }
  assert (Hoff : (0 <= off < Z.of_nat (List.length whole))%Z).
  { unfold off, whole. rewrite Efile. generalize (write_header v). generalize (write_xref_offset off). intros r h. rewrite !app_length. unfold write_object. rewrite !app_length. cbn [List.length]. lia. }
  set (RA := object_at rl whole self (OStream m enc)). set (IN := objects_in rl decode).
  (* objects of the file *)
  assert (Hes := fun n g x => entry_single E n g x Hsort).
  assert (Hentry : forall e o e2 o2, In (e, o) l -> In (e2, o2) l2 -> written todo file e o e2 o2 -> entry_of [E] (xnum e) (xgen e) = Some e2).
  { intros e o e2 o2 A B C. apply Hes. split; [apply (in_map fst _ _ B)|]. split; [apply (wr_num _ _ _ _ _ _ C)|apply (wr_gen _ _ _ _ _ _ C)]. }
  assert (Hread : forall e o e2 o2 off0 u, In (e, o) l -> written todo file e o e2 o2 -> xdata e = KUsed off0 u -> is_self (Some self) e = false ->
    exists p, xdata e2 = KUsed (Z.of_N p) true /\ RA (xnum e) (xgen e) (Z.of_N p) = Ok o2).
  { intros e o e2 o2 off0 u A [_ _ C3 C4] Ed En. rewrite En, Ed in C3. destruct C3 as (p & Ep & Hp). exists p. split; [exact Ep|]. unfold RA, object_at.
    destruct ((xnum e =? fst self) && (xgen e =? snd self)) eqn:X.
    { exfalso. assert (Y : is_self (Some self) e = true); [|congruence]. destruct self as [sn sg]. exact X. }
    unfold load_entry. cbn [xdata]. destruct (starts_skip _ _ _ (starts_more _ suffix _ _ Hp)) as (r & Hsk). fold whole in Hsk. rewrite Hsk. destruct (dc_entries _ _ _ _ D _ _ A) as (N1 & N2 & _).
    rewrite Ed in C4. destruct C4 as (o' & _ & _ & Hs2). rewrite read_written_object by assumption. reflexivity. }
  assert (Hkinds : forall e o e2 o2, In (e, o) l -> written todo file e o e2 o2 ->
    match xdata e with KUsed _ _ => exists q, xdata e2 = KUsed q true /\ (0 <= q)%Z /\ exists x, RA (xnum e) (xgen e) q = Ok x | _ => e2 = e end).
  { intros e o e2 o2 A B. destruct (is_self (Some self) e) eqn:X.
    - assert (Y := wr_entry _ _ _ _ _ _ B). rewrite X in Y. subst e2. apply self_spec in X. destruct (self_entry e o A X) as (q & Ed & Hq). rewrite Ed. exists q. split; [reflexivity|]. split; [lia|].
      exists (OStream m enc). unfold RA, object_at. rewrite <- X. cbn [fst snd]. rewrite !N.eqb_refl. reflexivity.
    - destruct (xdata e) as [next|off0 u|k i] eqn:Ed; try (assert (Y := wr_entry _ _ _ _ _ _ B); rewrite X, Ed in Y; exact Y).
      destruct (Hread e o e2 o2 off0 u A B Ed X) as (p & P1 & P2). exists (Z.of_N p). split; [exact P1|]. split; [lia|]. exists o2. exact P2. }
  assert (Hcomp : forall x k i, In x E -> xdata x = KComp k i -> exists o, In (x, o) l).
  { intros x k i Hx Ed. unfold E in Hx. apply in_map_iff in Hx. destruct Hx as ([e2 o2] & X & Hin). cbn [fst] in X. subst e2. destruct (Fb _ _ Hin) as (e & o & A & B).
    assert (K := Hkinds e o x o2 A B). destruct (xdata e) eqn:X; [subst x; congruence| |subst x; exists o; exact A]. destruct K as (q & Q & _). congruence. }
  (* object streams *)
  assert (Hstreams : forall k, is_object_stream l k -> exists out, stream_holds [E] RA IN k out /\ holds (map as_member (part k)) out).
  { intros k Hk. destruct Hk as (ec & oc & ic & Hc & Edc). destruct (dc_entries _ _ _ _ D _ _ Hc) as (_ & _ & C). rewrite Edc in C.
    destruct C as (_ & _ & _ & _ & ms & ds & (offu & Hu) & _). destruct (Ff _ _ Hu) as (e2 & o2 & Hin2 & Hwr).
    destruct (stream_loaded file k ltac:(exists ec, oc, ic; auto) _ _ _ _ Hu eq_refl Hwr) as (m2 & d2 & out & -> & Hg & Hns & (q & u & Ed) & Hin & Hh & _).
    destruct (Hread _ _ _ _ _ _ Hu Hwr Ed Hns) as (p & P1 & P2). exists out. split; [|exact Hh].
    exists e2, (Z.of_N p), true, m2, d2. split; [exact (Hentry _ _ _ _ Hu Hin2 Hwr)|]. split; [exact P1|]. split; [exact P2|exact Hin]. }
  assert (Hmembers : forall k out, holds (map as_member (part k)) out -> forall n o, In (n, o) out <-> exists c, In c (part k) /\ ce_num c = n /\ ce_obj c = o).
  { intros k out (ord & P & _ & ->) n o. rewrite in_map_iff. split.
    - intros (mm & X & Hin). apply (Permutation_in _ P) in Hin. apply in_map_iff in Hin. destruct Hin as (c & <- & Hc). cbn in X. injection X as <- <-. exists c. auto.
    - intros (c & Hc & <- & <-). exists (as_member c). split; [reflexivity|]. apply (Permutation_in _ (Permutation_sym P)). apply in_map. exact Hc. }
  assert (Hord : orderly [E] RA IN).
  { constructor.
    - intros n g e off0 u He Hd. apply Hes in He. destruct He as (He & <- & <-). unfold E in He. apply in_map_iff in He. destruct He as ([e2 o2] & X & Hin). cbn [fst] in X. subst e2.
      destruct (Fb _ _ Hin) as (e1 & o1 & A & B). assert (K := Hkinds e1 o1 e o2 A B). rewrite (wr_num _ _ _ _ _ _ B), (wr_gen _ _ _ _ _ _ B).
      destruct (xdata e1) eqn:X; try (subst e1; congruence). destruct K as (q & Q1 & Q2 & Q3). rewrite Q1 in Hd. injection Hd as <- _. split; [lia|exact Q3].
    - intros k Hk. destruct (Hstreams k (Hobj k Hk)) as (out & S1 & S2). exists out. split; [exact S1|]. split.
      + assert (P := part_nodup k). destruct S2 as (ord & Pm & _ & ->). rewrite map_map. cbn [fst].
        apply (Permutation_NoDup (l := map ce_num (part k))); [|exact P]. apply Permutation_sym.
        replace (map ce_num (part k)) with (map (fun x : ObjStream.member => fst (fst x)) (map as_member (part k))) by (rewrite map_map; reflexivity). apply Permutation_map. exact Pm.
      + intros n o Hn. apply (Hmembers k out S2) in Hn. destruct Hn as (c & Hc & <- & <-). apply part_in in Hc. destruct Hc as (Hc & <-). apply compressed_in in Hc.
        destruct Hc as (e & o & A & Ed & En & _). exists e. destruct (Ff _ _ A) as (e2 & o2 & Hin2 & Hwr). assert (K := Hkinds _ _ _ _ A Hwr). rewrite Ed in K. subst e2.
        destruct (dc_entries _ _ _ _ D _ _ A) as (_ & _ & C). rewrite Ed in C. destruct C as (C & _). split; [|right; exists (ce_index c); exact Ed].
        rewrite <- En, <- C. exact (Hentry _ _ _ _ A Hin2 Hwr).
    - intros n g e k i He Hd. apply Hes in He. destruct He as (He & <- & <-). destruct (Hcomp e k i He Hd) as (o & A). destruct (dc_entries _ _ _ _ D _ _ A) as (_ & _ & C). rewrite Hd in C.
      destruct C as (C & _). split; [exact C|]. intros t Ht. destruct (Hstreams k ltac:(exists e, o, i; auto)) as (out & S1 & S2).
      rewrite (holds_unique [E] RA IN k t out Ht S1). exists o. apply (Hmembers k out S2). exists {| ce_num := xnum e; ce_stream := k; ce_index := i; ce_obj := o |}.
      split; [|auto]. apply part_in. split; [|reflexivity]. apply compressed_in. exists e, o. auto. }
  fold RA IN. split; [|split; [exact Hord|split; [|split]]].
  ** intros c. unfold read_section, at_position. replace ((off <? 0)%Z || (Z.of_nat (List.length whole) <=? off)%Z) with false by lia. rewrite Hskip.
    assert (Epk : peek_type_skip parser_dictionary (write_object (fst self) (snd self) (OStream m enc) ++ rest) = Ok TyInt).
    { unfold peek_type_skip. unfold write_object. rewrite <- !app_assoc. assert (X := expect_number parser_dictionary [] 0 (fst self) 32). cbn [app] in X.
      change (pad_zero 0 (to_string_N (fst self))) with (to_string_N (fst self)) in X.
      specialize (X (to_string_N (snd self) ++ [32] ++ str "obj" ++ [10] ++ to_pdf (OStream m enc) ++ [10] ++ str "endobj" ++ [10] ++ rest) gap_nil white32).
      unfold expect_skip in X. apply rbind_ok in X. destruct X as ([tk r] & X0 & X). cbn [app] in X0 |- *. rewrite X0. cbn [rbind]. destruct (fst tk); try discriminate; reflexivity. }
    rewrite Epk. cbn [rbind]. change (ttype_eqb TyInt TyXref) with false. cbv iota. rewrite read_written_object by (first [exact Sn|exact Sg|exact Hstd]). cbn [rbind].
    assert (Hsec : parse_stream_section decode c (fst self) (snd self) m enc = Ok (c, {| s_kind := SStream; s_entries := E; s_hybrid := None; s_trailer := m |})).
    { unfold parse_stream_section. unfold find_ints at 1, find_int. rewrite !Hmf by (first [apply str_bytes|discriminate]).
      rewrite (Hm0f (str "W")) by apply str_bytes. rewrite (Hm0f (str "Size")) by apply str_bytes.
      destruct (list_eq_dec N.eq_dec (str "W") (str "DecodeParms")); [discriminate|]. destruct (list_eq_dec N.eq_dec (str "W") (str "Index")); [discriminate|].
      destruct (list_eq_dec N.eq_dec (str "W") (str "W")); [|congruence].
      change [OInt w1; OInt w2'; OInt w3'] with (map OInt [w1; w2'; w3']). rewrite int_values_ok. cbn [rbind].
      destruct (list_eq_dec N.eq_dec (str "Size") (str "DecodeParms")); [discriminate|]. destruct (list_eq_dec N.eq_dec (str "Size") (str "Index")); [discriminate|].
      destruct (list_eq_dec N.eq_dec (str "Size") (str "W")); [discriminate|]. destruct (list_eq_dec N.eq_dec (str "Size") (str "Size")); [|congruence].
      cbn [int_value rbind]. unfold sm_contains, find_ints. rewrite !Hmf by (first [apply str_bytes|discriminate]). rewrite (Hm0f (str "Index")) by apply str_bytes.
      destruct (list_eq_dec N.eq_dec (str "Index") (str "DecodeParms")); [discriminate|]. destruct (list_eq_dec N.eq_dec (str "Index") (str "Index")); [|congruence].
      replace (map (fun n => OInt (Z.of_N n)) index) with (map OInt (map Z.of_N index)) by (rewrite map_map; reflexivity). rewrite int_values_ok. cbn [rbind].
      rewrite Hdec. cbn [rbind]. rewrite Hparse. cbn [rbind].
      assert (Hns : names_self (fst self) (snd self) E = true).
      { unfold names_self. apply existsb_exists. destruct (Ff _ _ Hself) as (e2 & o2 & Hin2 & Hwr). assert (Y := wr_entry _ _ _ _ _ _ Hwr).
        assert (Z : is_self (Some self) {| xnum := fst self; xgen := snd self; xdata := KUsed offs true |} = true) by (apply self_spec; destruct self; reflexivity).
        rewrite Z in Y. subst e2. exists {| xnum := fst self; xgen := snd self; xdata := KUsed offs true |}. split; [apply (in_map fst _ _ Hin2)|]. cbn [xdata xnum xgen]. rewrite !N.eqb_refl. reflexivity. }
      rewrite Hns. reflexivity. }
    exact Hsec.
  ** intros k t n o Hk Ht Hin. destruct (Hstreams k Hk) as (out & S1 & S2). rewrite (holds_unique [E] RA IN k t out Ht S1) in Hin. apply (Hmembers k out S2) in Hin.
    destruct Hin as (c & Hc & <- & <-). apply part_in in Hc. destruct Hc as (Hc & <-). apply compressed_in in Hc. destruct Hc as (e & o & A & Ed & En & ->). exists e, (ce_index c). auto.
  ** intros n g Hno. apply or_missing. destruct (entry_of [E] n g) as [x|] eqn:X; [|reflexivity]. exfalso. apply Hes in X. destruct X as (Hx & Xn & Xg).
    unfold E in Hx. apply in_map_iff in Hx. destruct Hx as ([e2 o2] & X & Hin). cbn [fst] in X. subst e2. destruct (Fb _ _ Hin) as (e & o & A & B).
    apply (Hno e o A). rewrite <- Xn, <- Xg, (wr_num _ _ _ _ _ _ B), (wr_gen _ _ _ _ _ _ B). reflexivity.
  ** intros e o A. destruct (Ff _ _ A) as (e2 & o2 & Hin2 & Hwr). assert (He := Hentry _ _ _ _ A Hin2 Hwr). assert (K := Hkinds _ _ _ _ A Hwr).
    destruct (xdata e) as [next|off0 u|k i] eqn:Ed.
    + subst e2. eapply or_free; [exact He|exact Ed].
    + destruct (is_self (Some self) e) eqn:X.
      * assert (Y := wr_entry _ _ _ _ _ _ Hwr). rewrite X in Y. subst e2. eapply or_used; [exact He|exact Ed|]. apply self_spec in X. unfold RA, object_at. rewrite <- X. cbn [fst snd]. rewrite !N.eqb_refl. reflexivity.
      * destruct (Hread _ _ _ _ _ _ A Hwr Ed X) as (p & P1 & P2). exists o2. split; [eapply or_used; [exact He|exact P1|exact P2]|]. split.
        -- intros Hn. assert (Y := wr_obj _ _ _ _ _ _ Hwr). rewrite Ed in Y. destruct Y as (o' & [(-> & _)|(n & first & bd & m' & d' & b & q & u' & Y1 & _)] & Y2 & _); [exact Y2|].
           exfalso. apply Hn. apply object_stream_part. apply todo_in in Y1. apply Y1.
        -- intros Hk. destruct (stream_loaded file (xnum e) Hk _ _ _ _ A eq_refl Hwr) as (m2 & d2 & out & -> & _ & _ & _ & _ & _ & m1 & d1 & -> & Hf). exists m1, d1, m2, d2. auto.
    + subst e2. destruct (Hstreams k ltac:(exists e, o, i; auto)) as (out & S1 & S2). eapply or_stream; [exact He|exact Ed|exact S1|].
      apply (Hmembers k out S2). exists {| ce_num := xnum e; ce_stream := k; ce_index := i; ce_obj := o |}.
      split; [|auto]. apply part_in. split; [|reflexivity]. apply compressed_in. exists e, o. auto.
Qed.
Lemma stream_file_reopened : forall v file, write_stream_document encode v self hdr l = Ok file -> (Z.of_nat (List.length file) < 2 ^ 63)%Z ->
  exists offset E m d,
    let read_at := object_at rl file self (OStream m d) in
    let inside := objects_in rl decode in
    read_header file = Ok v /\ last_xref_offset file = Ok offset /\
    (forall fuel, read_chain parser_dictionary decode (S fuel) file offset = Ok [{| s_kind := SStream; s_entries := E; s_hybrid := None; s_trailer := m |}]) /\
    sm_find (str "Size") m = Some (OInt (Z.of_nat (List.length l))) /\
    (forall k, all_bytes k -> ~ In k own_keys -> sm_find k m = sm_find k hdr) /\
    orderly [E] read_at inside /\
    (forall k, object_stream [E] k -> is_object_stream l k) /\
    (forall n g, (forall e o, In (e, o) l -> (xnum e, xgen e) <> (n, g)) -> original [E] read_at inside n g ONull) /\
    (forall e o, In (e, o) l ->
      match xdata e with
      | KFree _ => original [E] read_at inside (xnum e) (xgen e) ONull
      | KUsed _ _ =>
          if is_self (Some self) e then original [E] read_at inside (xnum e) (xgen e) (OStream m d)
          else exists o', original [E] read_at inside (xnum e) (xgen e) o' /\
            (~ is_object_stream l (xnum e) -> same_object o o') /\
            (is_object_stream l (xnum e) -> exists m1 d1 m2 d2, o = OStream m1 d1 /\ o' = OStream m2 d2 /\
               forall x, all_bytes x -> x <> str "Length" -> x <> str "N" -> x <> str "First" -> sm_find x m2 = sm_find x m1)
      | KComp _ _ => original [E] read_at inside (xnum e) (xgen e) o
      end).
Proof.
  intros v file Hw Hlen. destruct (stream_file_behind v file Hw Hlen) as (off & E & m & d & A1 & A2 & A3 & A4 & A5 & A6 & A7 & A8 & A9 & A10 & A11). exists off, E, m, d. cbv zeta.
  destruct (A11 []) as (B1 & B2 & _ & B3 & B4). rewrite !app_nil_r in *. split; [exact A1|]. split; [exact A2|]. split.
  { intros fuel. unfold read_chain. cbn [read_sections]. rewrite B1. cbn [rbind s_trailer]. unfold sm_contains. rewrite A6. cbn [app rbind read_hybrids s_kind move_virtual]. reflexivity. }
  split; [exact A7|]. split; [exact A8|]. split; [exact B2|]. split; [exact A9|]. split; [exact B3|exact B4].
Qed.
End Main.

(** ** the objects as a function *)
Section Lookup.
Variable c : list (list xentry).
Variable read_at : N -> N -> Z -> res obj.
Variable members : obj -> res (list (N * obj)).
Definition or_null (r : res obj) : obj := match r with Ok o => o | _ => ONull end.
Definition lookup (n g : N) : obj :=
  match entry_of c n g with
  | Some e =>
      match xdata e with
      | KFree _ => ONull
      | KUsed off _ => or_null (read_at n g off)
      | KComp k _ =>
          match entry_of c k 0 with
          | Some e' =>
              match xdata e' with
              | KUsed off _ =>
                  match members (or_null (read_at k 0 off)) with
                  | Ok t => match find (fun x => fst x =? n) t with Some x => snd x | None => ONull end
                  | _ => ONull
                  end
              | _ => ONull
              end
          | None => ONull
          end
      end
  | None => ONull
  end.
Lemma lookup_original : orderly c read_at members -> forall n g, original c read_at members n g (lookup n g).
Proof.
  intros Ord n g. unfold lookup. destruct (entry_of c n g) as [e|] eqn:E; [|apply or_missing; exact E]. destruct (xdata e) as [next|off u|k i] eqn:Ed.
  - eapply or_free; eauto.
  - destruct (or_readable _ _ _ Ord _ _ _ _ _ E Ed) as (_ & o & Ho). rewrite Ho. eapply or_used; eauto.
  - destruct (or_listed _ _ _ Ord _ _ _ _ _ E Ed) as (_ & Hl). destruct (or_streams _ _ _ Ord k (is_stream_of _ _ _ _ _ _ E Ed)) as (t & Ht & _). destruct (Hl t Ht) as (o & Ho).
    assert (Ht' := Ht). destruct Ht' as (e' & off & u & m & d & A1 & A2 & A3 & A4). rewrite A1, A2, A3. cbn [or_null]. rewrite A4.
    destruct (find (fun x => fst x =? n) t) as [[n' o']|] eqn:Ef.
    + apply find_some in Ef. destruct Ef as (B1 & B2). cbn [fst snd] in *. apply N.eqb_eq in B2. subst n'. eapply or_stream; eauto.
    + exfalso. apply (find_none _ _ Ef) in Ho. cbn [fst] in Ho. lia.
Qed.
End Lookup.

(** Streams with a length of their own object are saved with the length of their data. *)
From Coq Require Import List NArith ZArith Bool Lia String Sorted.
From Coq Require Import List.
From Verif.Model Require Import Base Char Numbers SMap Object Token Parser Arith Containers Xref StartXref Header FileWrite Chain Merge Update SharedLength.
From Verif.Spec Require Import Strings Grammar Containers Xref FileWrite Chain Merge Update Conforming Written SharedLength.
From Verif.Proof Require Import Tac Numbers Strings Token SMap Parser Writer StreamObj Arith Xref StartXref FileWrite Containers Chain Merge Update Crash Conforming Written.
Import ListNotations.
Local Open Scope N_scope.

(** ** lookup *)
Lemma find_object_in : forall l n g o, StronglySorted N.lt (map (fun p => xnum (fst p)) l) -> has l n g o -> find_object l n g = o.
Proof.
  intros l n g o Hs (off & Hin). unfold find_object.
  assert (E : find (fun p : xentry * obj => (xnum (fst p) =? n) && (xgen (fst p) =? g)) l = Some ({| xnum := n; xgen := g; xdata := KUsed off true |}, o)); [|rewrite E; reflexivity].
  induction l as [|p l IH]; [destruct Hin|]. cbn [map] in Hs. inversion Hs as [|? ? Hs' Ha]; subst. cbn [find]. destruct Hin as [->|Hin].
  - cbn [fst xnum xgen]. rewrite !N.eqb_refl. reflexivity.
  - rewrite Forall_forall in Ha. assert (H := Ha n). rewrite in_map_iff in H. specialize (H ltac:(eexists; split; [|exact Hin]; reflexivity)).
    replace (xnum (fst p) =? n) with false by lia. cbn [andb]. apply IH; assumption.
Qed.
Lemma find_object_has : forall l n g, find_object l n g <> ONull -> has l n g (find_object l n g).
Proof.
  intros l n g H. unfold find_object in *. destruct (find _ l) as [[e o]|] eqn:E; [|congruence]. apply find_some in E. destruct E as [Hin E].
  destruct e as [n' g' [next|off []|a b]]; cbn [xdata fst xnum xgen] in *; try congruence. exists off. replace n with n' by lia. replace g with g' by lia. exact Hin.
Qed.

(** ** lengths *)
(** what the writer keeps of an object: [exact] says which references are integers of this value *)
Definition resized (exact : N -> N -> Z -> Prop) (o o' : obj) : Prop :=
  o' = o /\ writable o \/
  exists m m' data, o = OStream m data /\ o' = OStream m' data /\ writable (ODict m') /\ (forall k v, k <> str "Length" -> In (k, v) m <-> In (k, v) m') /\
    exists v, (forall x, In (str "Length", x) m' <-> x = v) /\
      (v = OInt (Z.of_nat (List.length data)) \/ exists n g, v = ORef n g /\ In (str "Length", v) m /\ exact n g (Z.of_nat (List.length data))).
Lemma dict_set : forall m v, writable (ODict m) -> writable v -> v <> ONull ->
  let m' := sm_insert (str "Length") v (sm_remove (str "Length") m) in
  writable (ODict m') /\ (forall k x, k <> str "Length" -> In (k, x) m <-> In (k, x) m') /\ forall x, In (str "Length", x) m' <-> x = v.
Proof.
  intros m v Hw Hv Hn m'. assert (W : writable (ODict m')) by (apply writable_set; [exact Hw|exact length_bytes|exact Hv|exact Hn]).
  destruct (writable_parts _ Hw) as (S1 & K1 & _). destruct (writable_parts _ W) as (S2 & K2 & _).
  assert (Hf : forall k, all_bytes k -> sm_find k m' = if list_eq_dec N.eq_dec k (str "Length") then Some v else sm_find k m) by (intros k Hk; apply find_set; auto using length_bytes).
  split; [exact W|]. split.
  - intros k x Hk. split; intros Hin.
    + assert (Hb : all_bytes k) by (unfold sm_keys_ok in K1; rewrite Forall_forall in K1; exact (K1 _ Hin)).
      apply sm_find_in; auto. rewrite Hf by exact Hb. destruct (list_eq_dec N.eq_dec k (str "Length")); [congruence|]. apply sm_find_in; auto.
    + assert (Hb : all_bytes k) by (unfold sm_keys_ok in K2; rewrite Forall_forall in K2; exact (K2 _ Hin)).
      apply sm_find_in in Hin; auto. rewrite Hf in Hin by exact Hb. destruct (list_eq_dec N.eq_dec k (str "Length")); [congruence|]. apply sm_find_in; auto.
  - intros x. rewrite <- sm_find_in by auto using length_bytes. rewrite Hf by exact length_bytes. destruct (list_eq_dec N.eq_dec (str "Length") (str "Length")); [|congruence].
    split; [intros H; congruence|intros ->; reflexivity].
Qed.
Lemma remove_absent : forall (m : list (bytes * obj)) k, sm_find k m = None -> sm_remove k m = m.
Proof.
  induction m as [|[k' v] m IH]; intros k H; [reflexivity|]. cbn [sm_find sm_remove] in *. destruct (buffer_ltb k k'); [reflexivity|].
  destruct (buffer_ltb k' k); [|discriminate H]. rewrite IH by exact H. reflexivity.
Qed.
Lemma set_length_ok : forall l o, StronglySorted N.lt (map (fun p => xnum (fst p)) l) -> saveable_object l o ->
  exists o', set_length l o = Ok o' /\ resized (fun n g z => has l n g (OInt z)) o o'.
Proof.
  intros l o Hs H. destruct H as [o Ho|m data Hw Hd Hlen].
  - exists o. split; [destruct Ho; reflexivity|left; auto].
  - cbn [set_length]. destruct (writable_parts m Hw) as (S1 & K1 & _).
    assert (Hi : writable (OInt (Z.of_nat (List.length data)))).
    { apply w_int. change (2 ^ 63) with 9223372036854775808 in Hd. change (2 ^ 63)%Z with 9223372036854775808%Z. lia. }
    destruct (dict_set m _ Hw Hi ltac:(discriminate)) as (D1 & D2 & D3). cbv zeta in D1, D2, D3.
    assert (Hset : resized (fun n g z => has l n g (OInt z)) (OStream m data)
              (OStream (sm_insert (str "Length") (OInt (Z.of_nat (List.length data))) (sm_remove (str "Length") m)) data)).
    { right. do 3 eexists. split; [reflexivity|]. split; [reflexivity|]. split; [exact D1|]. split; [exact D2|]. eexists. split; [exact D3|]. left. reflexivity. }
    destruct (sm_find (str "Length") m) as [v|] eqn:Ef.
    + assert (Hin : In (str "Length", v) m) by (apply sm_find_in; auto using length_bytes).
      assert (Honly : forall x, In (str "Length", x) m <-> x = v).
      { intros x. rewrite <- sm_find_in by auto using length_bytes. rewrite Ef. split; [intros H; congruence|intros ->; reflexivity]. }
      assert (G : exists z, length_value l v = Ok z /\ (0 <= z)%Z /\ (v = OInt z \/ exists n g, v = ORef n g /\ has l n g (OInt z))).
      { destruct (Hlen v Hin) as [(z & -> & Hz)|(n & g & z & -> & Hh & Hz)]; exists z; (split; [|split; [exact Hz|]]).
        - reflexivity.
        - left. reflexivity.
        - unfold length_value. rewrite (find_object_in l n g _ Hs Hh). reflexivity.
        - right. exists n, g. auto. }
      destruct G as (z & -> & Hz & Hv). cbn [rbind]. unfold to_u64. replace (z <? 0)%Z with false by lia. cbn [rbind].
      destruct (Z.to_N z =? N.of_nat (List.length data)) eqn:Ez.
      * eexists. split; [reflexivity|]. right. exists m, m, data. split; [reflexivity|]. split; [reflexivity|]. split; [exact Hw|]. split; [tauto|].
        exists v. split; [exact Honly|]. assert (E : z = Z.of_nat (List.length data)) by lia. subst z. destruct Hv as [->|(n & g & -> & Hh)]; [left; reflexivity|right; exists n, g; auto].
      * eexists. split; [reflexivity|]. exact Hset.
    + eexists. split; [reflexivity|]. rewrite (remove_absent m _ Ef) in Hset. exact Hset.
Qed.

Lemma set_lengths_ok : forall all l, StronglySorted N.lt (map (fun p => xnum (fst p)) all) ->
  (forall e o, In (e, o) l -> entry_saveable e /\ (forall off, xdata e = KUsed off true -> saveable_object all o)) ->
  exists l1, set_lengths all l = Ok l1 /\
    Forall2 (fun a b => fst b = fst a /\ (used_in_use (fst a) -> resized (fun n g z => has all n g (OInt z)) (snd a) (snd b))) l l1.
Proof.
  intros all l Hs. induction l as [|[e o] l IH]; intros H; [exists []; split; [reflexivity|constructor]|].
  destruct IH as (l1 & E & F); [intros e' o' Hin; apply H; right; exact Hin|]. destruct (H e o (or_introl eq_refl)) as [He Ho]. cbn [set_lengths].
  destruct e as [num gen [next|off u|a b]]; unfold entry_saveable in He; cbn [xdata xnum xgen] in *.
  - rewrite E. cbn [rbind]. eexists. split; [reflexivity|]. constructor; [split; [reflexivity|intros []]|exact F].
  - destruct He as (_ & _ & ->). destruct (set_length_ok all o Hs (Ho off eq_refl)) as (o' & Eo & Ro). rewrite Eo, E. cbn [rbind].
    eexists. split; [reflexivity|]. constructor; [split; [reflexivity|intros _; exact Ro]|exact F].
  - destruct He as (_ & _ & []).
Qed.

(** ** texts *)
Definition text_in (l : list (xentry * obj)) (txt : list N) (o : obj) : Prop :=
  object_text txt o \/ exists len, (forall n g z, len n g = Some z -> has l n g (OInt z)) /\ stream_text len txt o.
Lemma stream_written : forall len m data, writable (ODict m) ->
  (In (str "Length", OInt (Z.of_nat (List.length data))) m \/ exists n v, In (str "Length", ORef n v) m /\ len n v = Some (Z.of_nat (List.length data))) ->
  stream_text len (to_pdf (OStream m data)) (OStream m data).
Proof.
  intros len m data Hw Hin. assert (Ht := to_pdf_text (ODict m) Hw). cbn [to_pdf].
  change ([60; 60] ++ join_sp (map (fun e => (47 :: name_to_string (fst e)) ++ [32] ++ to_pdf (snd e)) m) ++ [62; 62]) with (to_pdf (ODict m)).
  assert (H := stt len (to_pdf (ODict m)) m [10] [10] data []). rewrite app_nil_l in H. apply H; auto using gap10; [left; reflexivity|constructor].
Qed.
Lemma resized_text : forall l o o', StronglySorted N.lt (map (fun p => xnum (fst p)) l) -> resized (fun n g z => has l n g (OInt z)) o o' -> text_in l (to_pdf o') o'.
Proof.
  intros l o o' Hs [[-> Hw]|(m & m' & data & -> & -> & Hw & _ & v & Hv & Hc)]; [left; apply to_pdf_text, Hw|]. right.
  exists (fun n g => match find_object l n g with OInt z => Some z | _ => None end). split.
  - intros n g z H. destruct (find_object l n g) as [| |z'| | | | | | | | ] eqn:E; try discriminate H. assert (z' = z) by congruence. subst z'. rewrite <- E. apply find_object_has. rewrite E. discriminate.
  - apply stream_written; [exact Hw|]. destruct Hc as [->|(n & g & -> & _ & Hh)]; [left; apply Hv; reflexivity|right].
    exists n, g. split; [apply Hv; reflexivity|]. rewrite (find_object_in l n g _ Hs Hh). reflexivity.
Qed.

(** ** the file *)
Section File.
Variables (file : bytes) (l : list (xentry * obj)) (trailer : list (bytes * obj)) (r : revision) (before : list revision).
Hypothesis sorted : StronglySorted N.lt (map (fun p => xnum (fst p)) l).
Hypothesis ints : forall n g z, has l n g (OInt z) -> writable (OInt z).
Hypothesis in_file : written_as (resized (fun n g z => has l n g (OInt z))) (text_in l) file r (l, trailer).
Lemma listed : forall n row, In (n, row) (r_rows r) -> current (r :: before) n row before.
Proof. intros n row H. exists [], r. split; [reflexivity|]. split; [exact H|]. intros x q []. Qed.
Lemma integer_in_file : forall n g z, has l n g (OInt z) -> integer_object file (r :: before) n g z.
Proof.
  intros n g z (off & Hin). destruct in_file as [_ H]. specialize (H _ _ Hin). cbn [xdata xnum xgen] in H. destruct H as (pos & o' & H1 & H2 & H3).
  destruct H3 as [[-> _]|(m & m' & data & E & _)]; [|discriminate E]. exists pos, before. split; [apply listed, H1|].
  destruct H2 as (dn & g1 & dg & g2 & g3 & txt & g4 & rest & A1 & A2 & A3 & A4 & A5 & A6 & A7 & A8 & A9 & A10 & A11 & A12).
  exists dn, g1, dg, g2, g3, txt, g4, rest. repeat (split; [assumption|]). split; [|exact A12]. destruct A11 as [H|(len & _ & H)]; [exact H|inversion H].
Qed.
Lemma object_in_file : forall pos n g o, object_at (text_in l) file pos n g o -> object_at (body_of file (r :: before)) file pos n g o.
Proof.
  intros pos n g o (dn & g1 & dg & g2 & g3 & txt & g4 & rest & A1 & A2 & A3 & A4 & A5 & A6 & A7 & A8 & A9 & A10 & A11 & A12).
  exists dn, g1, dg, g2, g3, txt, g4, rest. repeat (split; [assumption|]). split; [|exact A12]. destruct A11 as [H|(len & H1 & H2)]; [left; exact H|right].
  exists len. split; [|exact H2]. intros a b z Hz. apply integer_in_file, H1, Hz.
Qed.
Lemma integer_stands : forall n g z, has l n g (OInt z) -> stands_for file (r :: before) n g (OInt z).
Proof.
  intros n g z H. destruct (integer_in_file n g z H) as (pos & older & H1 & H2). apply (sf_object _ _ _ _ pos older); [exact H1|].
  destruct H2 as (dn & g1 & dg & g2 & g3 & txt & g4 & rest & A1 & A2 & A3 & A4 & A5 & A6 & A7 & A8 & A9 & A10 & A11 & A12).
  exists dn, g1, dg, g2, g3, txt, g4, rest. repeat (split; [assumption|]). split; [left; exact A11|exact A12].
Qed.
Lemma resized_kept : forall o o', resized (fun n g z => has l n g (OInt z)) o o' -> kept_object file (r :: before) o o'.
Proof.
  intros o o' [[-> Hw]|(m & m' & data & -> & -> & Hw & Hk & v & Hv & Hc)]; [apply ko_direct, Hw|]. apply ko_stream; [exact Hk|exists v; apply Hv; reflexivity|].
  intros x Hx. apply Hv in Hx. subst x. destruct Hc as [->|(n & g & -> & Hin & Hh)]; [left; reflexivity|right]. exists n, g. split; [reflexivity|]. split; [exact Hin|apply integer_stands, Hh].
Qed.
End File.

Lemma document_written : forall v l trailer file, saveable_document l -> writable (ODict trailer) ->
  (forall x, ~ In (str "Prev", x) trailer) -> (forall x, ~ In (str "XRefStm", x) trailer) ->
  write_document v l trailer = Ok file -> (Z.of_nat (List.length file) <= 10 ^ 10)%Z ->
  exists r, conforming file v [r] /\ r_trailer r = set_size trailer (N.of_nat (List.length l)) /\
    written_as (resized (fun n g z => has l n g (OInt z))) (text_in l) file r (l, trailer).
Proof.
  intros v l trailer file (Hs & Hcnt & Hlinks & Hl) Ht Hp Hx Hw Hlen. unfold write_document in Hw.
  destruct (set_lengths_ok l l Hs Hl) as (l1 & E1 & F1). rewrite E1 in Hw. cbn [rbind] in Hw. cbn zeta in Hw.
  assert (Hr : exists off, section_rest (write_header v) l1 trailer = Ok (file, off)).
  { unfold section_rest. cbn zeta. destruct (write_objects None _ l1) as [body l2]. apply rbind_ok in Hw. destruct Hw as (table & -> & Hw). cbn [rbind]. apply Ok_inj in Hw.
    eexists. rewrite <- Hw. reflexivity. }
  destruct Hr as (off & Hr).
  destruct (rest_conforms (resized (fun n g z => has l n g (OInt z))) (text_in l) (write_header v) l l1 trailer file off Hs) as (G1 & G2 & G3 & r & G4 & G5); try assumption.
  - rewrite Forall_forall. intros [e o] Hin. exact (proj1 (Hl e o Hin)).
  - clear - F1 Hs. assert (G : forall all la lb, Forall2 (fun a b : xentry * obj => fst b = fst a /\ (used_in_use (fst a) -> resized (fun n g z => has all n g (OInt z)) (snd a) (snd b))) la lb ->
      StronglySorted N.lt (map (fun p => xnum (fst p)) all) ->
      Forall2 (fun a b : xentry * obj => fst b = fst a /\ (used_in_use (fst a) -> resized (fun n g z => has all n g (OInt z)) (snd a) (snd b) /\ text_in all (to_pdf (snd b)) (snd b))) la lb); [|apply G; assumption].
    clear. intros all la lb F Hs. induction F as [|a b la lb (K & C) F IH]; constructor; [|exact IH]. split; [exact K|]. intros Hu. split; [exact (C Hu)|exact (resized_text _ _ _ Hs (C Hu))].
  - exists r. specialize (G5 []). rewrite !app_nil_r in G5. destruct G5 as [G5 (text & more & T1 & T2 & T3)]. split; [|split; [exact G4|exact G5]].
    destruct (size_written trailer (List.length l) Ht Hcnt) as (Z1 & Z2 & Z3 & Z4).
    assert (Hno : forall k, k = str "Prev" \/ k = str "XRefStm" -> forall x, ~ In (k, x) (r_trailer r)).
    { intros k Hk x Hin. rewrite G4 in Hin. assert (Hb : all_bytes k) by (destruct Hk as [-> | ->]; apply str_bytes). apply in_find in Hin; [|exact Z1|exact Hb].
      rewrite Z4 in Hin; [|exact Hb|destruct Hk as [-> | ->]; discriminate]. apply in_find in Hin; [|exact Ht|exact Hb]. destruct Hk as [-> | ->]; [exact (Hp x Hin)|exact (Hx x Hin)]. }
    apply (conforming_from file v (Z.to_N off) [r]); [| |exact G3| |exact Hlen].
    + apply (rev_oldest _ _ text r [10] more); try assumption; [exact gap10|apply Hno; auto..].
    + change (10 ^ 10)%Z with 10000000000%Z in G2. change (10 ^ 10) with 10000000000. lia.
    + destruct G1 as (p & ->). exists [10], ([37; 222; 173; 192; 222] ++ [10] ++ p). split; [left; reflexivity|]. unfold write_header. rewrite <- !app_assoc. destruct v; reflexivity.
Qed.

(** ** writing succeeds *)
Lemma runs_counted : forall t idx j, Forall (fun e => xnum e < 2 ^ 63) t -> idx + j <= 2 ^ 63 -> exists n, run_length idx j t = Ok n /\ j <= n.
Proof.
  induction t as [|e t IH]; intros idx j Hr Hij; cbn [run_length]; [eexists; split; [reflexivity|lia]|].
  inversion Hr as [|? ? He Ht]; subst. rewrite add_u64_ok by (change (2 ^ 64) with 18446744073709551616; change (2 ^ 63) with 9223372036854775808 in *; lia).
  cbn [rbind]. destruct (xnum e =? idx + j) eqn:E; [|eexists; split; [reflexivity|lia]].
  destruct (IH idx (j + 1) Ht) as (n & En & Hn); [lia|]. exists n. split; [exact En|lia].
Qed.
Lemma subsections_written : forall f t, (List.length t <= f)%nat -> Forall (fun e => xnum e < 2 ^ 63) t -> xsorted t -> exists txt, write_subsections f t = Ok txt.
Proof.
  induction f as [|f IH]; intros t Hf Hr Hs; (destruct t as [|e t]; [eexists; reflexivity|]); [cbn in Hf; lia|].
  cbn [write_subsections]. inversion Hr as [|? ? He Ht]; subst. destruct (runs_counted t (xnum e) 1 Ht ltac:(lia)) as (n & En & Hn). rewrite En. cbn [rbind].
  assert (Hlen : (List.length (skipn (N.to_nat n) (e :: t)) <= f)%nat) by (rewrite skipn_length; cbn [List.length] in *; lia).
  destruct (IH (skipn (N.to_nat n) (e :: t)) Hlen) as (txt & Etxt).
  - rewrite <- (firstn_skipn (N.to_nat n) (e :: t)) in Hr. apply Forall_app in Hr. apply Hr.
  - rewrite <- (firstn_skipn (N.to_nat n) (e :: t)) in Hs. apply xsorted_app in Hs. apply Hs.
  - rewrite Etxt. eexists. reflexivity.
Qed.
Lemma document_writes : forall v l trailer, saveable_document l -> exists file, write_document v l trailer = Ok file.
Proof.
  intros v l trailer (Hs & _ & _ & Hl). unfold write_document. destruct (set_lengths_ok l l Hs Hl) as (l1 & E1 & F1). rewrite E1. cbn [rbind]. cbn zeta.
  assert (Hl1 : Forall (fun p => entry_saveable (fst p)) l1).
  { assert (Hl0 : Forall (fun p => entry_saveable (fst p)) l) by (rewrite Forall_forall; intros [e o] Hin; exact (proj1 (Hl e o Hin))).
    assert (Ek : map fst l1 = map fst l) by (clear - F1; induction F1 as [|a b la lb (K & _) F IH]; [reflexivity|]; cbn [map]; rewrite K, IH; reflexivity).
    rewrite Forall_forall in *. intros p Hp. apply (in_map fst) in Hp. rewrite Ek in Hp. apply in_map_iff in Hp. destruct Hp as (q & <- & Hq). exact (Hl0 q Hq). }
  assert (Ho := write_objects_ok l1 (N.of_nat (List.length (write_header v))) (write_header v) [] eq_refl Hl1).
  destruct (write_objects None (N.of_nat (List.length (write_header v))) l1) as [body l2]. cbn [fst snd] in Ho.
  assert (Hnums : map (fun p => xnum (fst p)) l2 = map (fun p => xnum (fst p)) l).
  { rewrite (Forall2_nums _ _ _ (fun a b (H : placed _ _ _ a b) => proj1 H) Ho). refine (Forall2_nums _ _ _ _ F1). intros a b [K _]. rewrite K. reflexivity. }
  unfold write_xref_table. destruct (subsections_written (List.length (map fst l2)) (map fst l2) (le_n _)) as (txt & Etxt).
  - rewrite Forall_forall. intros e He. apply in_map_iff in He. destruct He as (p & <- & Hp).
    assert (Hi : In (xnum (fst p)) (map (fun p => xnum (fst p)) l)) by (rewrite <- Hnums; apply (in_map (fun p : xentry * obj => xnum (fst p))), Hp).
    apply in_map_iff in Hi. destruct Hi as ([e o] & <- & Hq). destruct (Hl e o Hq) as ((B & _) & _). exact B.
  - apply sorted_nums. rewrite Hnums. exact Hs.
  - rewrite Etxt. cbn [rbind]. eexists. reflexivity.
Qed.

(** ** lengths that are not there, and the writer for direct lengths *)
Lemma set_lengths_each : forall all l l1, set_lengths all l = Ok l1 -> forall e o off u, In (e, o) l -> xdata e = KUsed off u -> exists o', set_length all o = Ok o'.
Proof.
  intros all. induction l as [|[e' o'] l IH]; intros l1 H e o off u Hin Hd; [destruct Hin|]. cbn [set_lengths] in H. apply rbind_ok in H. destruct H as (x & Hx & H).
  apply rbind_ok in H. destruct H as (t & Ht & _). destruct Hin as [E|Hin]; [|exact (IH _ Ht _ _ _ _ Hin Hd)].
  apply pair_equal_spec in E. destruct E as [-> ->]. rewrite Hd in Hx. exists x. exact Hx.
Qed.
Lemma find_object_none : forall l n g, (forall o, ~ has l n g o) -> find_object l n g = ONull.
Proof. intros l n g H. unfold find_object. destruct (find _ l) as [[e o]|] eqn:E; [|reflexivity]. destruct (xdata e) as [next|off []|a b] eqn:Ed; try reflexivity.
  exfalso. apply find_some in E. destruct E as [Hin E]. apply (H o). exists off. destruct e as [n' g' d]. cbn [fst xnum xgen xdata] in *. replace n with n' by lia. replace g with g' by lia. subst d. exact Hin. Qed.
Lemma set_length_direct : forall l o, (forall m data n g, o = OStream m data -> sm_find (str "Length") m <> Some (ORef n g)) -> set_length l o = recalculate_length o.
Proof.
  intros l [] H; try reflexivity. cbn [set_length recalculate_length]. specialize (H l0 data). destruct (sm_find (str "Length") l0) as [v|]; [|reflexivity].
  destruct v as [| | | | | | |n g| | | ]; try reflexivity. exfalso. exact (H n g eq_refl eq_refl).
Qed.
Lemma set_lengths_direct : forall all l, (forall e m data n g, In (e, OStream m data) l -> sm_find (str "Length") m <> Some (ORef n g)) -> set_lengths all l = recalculate_lengths l.
Proof.
  intros all. induction l as [|[e o] l IH]; intros H; [reflexivity|]. cbn [set_lengths recalculate_lengths]. rewrite IH by (intros e' m data n g Hin; apply (H e' m data); right; exact Hin).
  rewrite set_length_direct; [reflexivity|]. intros m data n g ->. apply (H e m data). left. reflexivity.
Qed.

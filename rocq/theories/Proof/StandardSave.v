(** Opening and saving a file that follows the standard. *)
From Coq Require Import List NArith ZArith Bool Lia String Sorted.
From Coq Require Import List.
From Verif.Model Require Import Base SMap Object Equality Token Parser Xref Header FileWrite Chain Merge Unreferenced Duplicates Update Rebuild Conforming Save StandardSave.
From Verif.Spec Require Import Strings Grammar Xref FileWrite Chain Merge Unreferenced Duplicates Update Conforming Written Save StandardSave.
From Verif.Proof Require Import Tac Strings SMap Token Parser Writer StreamObj Xref FileWrite Chain Merge Update Conforming Written Unreferenced Save SaveOk.
From Verif.Props Require Conforming Written.
Import ListNotations.
Local Open Scope N_scope.

Local Notation opened revs := (map Conforming.table_of revs).

(** ** the tables *)
Lemma xadd_numbers : forall e l n, In n (map xnum (xadd e l)) <-> n = xnum e \/ In n (map xnum l).
Proof.
  intros e. induction l as [|x l IH]; intros n; cbn [xadd map In]; [intuition|]. cif; [cbn [map In]; intuition|]. cif; cbn [map In].
  - assert (E : xnum e = xnum x) by lia. rewrite E. intuition.
  - rewrite IH. intuition.
Qed.
Lemma xadd_sorted : forall e l, StronglySorted N.lt (map xnum l) -> StronglySorted N.lt (map xnum (xadd e l)).
Proof.
  intros e. induction l as [|x l IH]; intros H; cbn [xadd map]; [repeat constructor|]. cbn [map] in H. inversion H as [|? ? H1 H2]; subst. rewrite Forall_forall in H2. cif.
  - cbn [map]. constructor; [exact H|]. constructor; [lia|]. rewrite Forall_forall. intros y Hy. specialize (H2 y Hy). lia.
  - cif; cbn [map].
    + constructor; [exact H1|]. rewrite Forall_forall. intros y Hy. specialize (H2 y Hy). lia.
    + constructor; [apply IH, H1|]. rewrite Forall_forall. intros y Hy. apply xadd_numbers in Hy. destruct Hy as [->|Hy]; [lia|exact (H2 y Hy)].
Qed.
Lemma xadd_length : forall e l, (List.length (xadd e l) <= Datatypes.S (List.length l))%nat.
Proof. intros e. induction l as [|x l IH]; cbn [xadd]; [cbn; lia|]. cif; [cbn [List.length]; lia|]. cif; cbn [List.length]; lia. Qed.
Lemma rows_sorted : forall rows acc, StronglySorted N.lt (map xnum acc) -> StronglySorted N.lt (map xnum (add_rows rows acc)).
Proof. induction rows as [|p rows IH]; intros acc H; [exact H|]. cbn [add_rows fold_left]. apply IH, xadd_sorted, H. Qed.
Lemma rows_length : forall rows acc, (List.length (add_rows rows acc) <= List.length rows + List.length acc)%nat.
Proof.
  induction rows as [|p rows IH]; intros acc; [cbn; lia|]. cbn [add_rows fold_left List.length]. assert (H := IH (xadd (entry (fst p) (snd p)) acc)). unfold add_rows in H.
  assert (H2 := xadd_length (entry (fst p) (snd p)) acc). lia.
Qed.
Lemma rows_in : forall rows acc e, In e (add_rows rows acc) -> (exists n r, In (n, r) rows /\ e = entry n r) \/ In e acc.
Proof.
  induction rows as [|[n r] rows IH]; intros acc e H; [right; exact H|]. cbn [add_rows fold_left fst snd] in H. apply IH in H. destruct H as [(n' & r' & H & E)|H].
  - left. exists n', r'. split; [right; exact H|exact E].
  - apply in_xadd in H. destruct H as [->|H]; [left; exists n, r; split; [left; reflexivity|reflexivity]|right; exact H].
Qed.
Lemma entries_rows : forall s e, In e (s_entries (Conforming.table_of s)) -> exists n r, In (n, r) (r_rows s) /\ e = entry n r.
Proof. intros s e H. cbn [Conforming.table_of s_entries] in H. apply rows_in in H. destruct H as [H|[]]. exact H. Qed.
Lemma rows_entries : forall s n r, once s -> In (n, r) (r_rows s) -> In (entry n r) (s_entries (Conforming.table_of s)).
Proof.
  intros s n r Ho H. assert (E := rows_found n r (r_rows s) [] Ho H). unfold xfind in E. apply find_some in E. apply E.
Qed.

Lemma opened_plain : forall file v revs, conforming file v revs -> plain_tables (opened revs).
Proof.
  intros file v revs Hc. destruct (conforming_rows _ _ _ Hc) as [Ho Hr]. split.
  - destruct Hc as (offset & Hr' & _). destruct Hr'; discriminate.
  - intros s Hs. apply in_map_iff in Hs. destruct Hs as (r & <- & Hs). split; [reflexivity|]. split; [reflexivity|]. split.
    + apply Save.sorted_nodup. cbn [Conforming.table_of s_entries]. apply rows_sorted. constructor.
    + intros e He. destruct (entries_rows r e He) as (n & w & Hin & ->). destruct (Hr r n w Hs Hin) as [_ B]. rewrite entry_gen. split; [exact B|]. destruct w; cbn [entry xdata]; [reflexivity|exact I].
Qed.
Lemma opened_count : forall revs, (List.length (flat_map s_entries (opened revs)) <= List.length (flat_map r_rows revs))%nat.
Proof.
  induction revs as [|s revs IH]; [cbn; lia|]. cbn [map flat_map]. rewrite !app_length. cbn [Conforming.table_of s_entries].
  assert (H := rows_length (r_rows s) []). cbn [List.length] in H. lia.
Qed.
Lemma current_latest : forall revs n g offset older, Forall once revs -> current revs n (InUse offset g) older -> names_latest (opened revs) n g.
Proof.
  intros revs n g offset older Ho (newer & s & -> & Hin & Hnew). induction newer as [|x newer IH]; cbn [app map]; intros newer' s' older' e E He En Hd Hn.
  - inversion Ho as [|? ? Hs Ho']; subst. destruct newer' as [|y newer']; cbn [app] in E; injection E as E1 E2.
    + subst s'. destruct (entries_rows s e He) as (m & w & Hw & ->). rewrite entry_num in Hin. assert (F1 := proj1 (table_find m s Hs) _ Hin). assert (F2 := proj1 (table_find m s Hs) _ Hw). rewrite F1 in F2. injection F2 as F2.
      rewrite <- F2. reflexivity.
    + subst y. exfalso. apply (Hn (Conforming.table_of s) (entry (xnum e) (InUse offset g)) (or_introl eq_refl)); [apply rows_entries; assumption|reflexivity|reflexivity].
  - inversion Ho as [|? ? Hx Ho']; subst. destruct newer' as [|y newer']; cbn [app] in E; injection E as E1 E2.
    + subst s'. exfalso. destruct (entries_rows x e He) as (m & w & Hw & ->). rewrite entry_num in Hnew. exact (Hnew x w (or_introl eq_refl) Hw).
    + apply (IH Ho') with (newer := newer') (s := s') (older := older'); auto.
      * intros z q Hz. apply Hnew. right. exact Hz.
      * intros z q Hz. apply Hn. right. exact Hz.
Qed.

(** ** the objects *)
Lemma entry_loaded : forall file v revs n g offset o, conforming file v revs -> n < 2 ^ 63 -> g <= 65535 ->
  object_at (body_of file revs) file offset n g o ->
  entry_object file (opened revs) {| xnum := n; xgen := g; xdata := KUsed (Z.of_N offset) true |} = Ok o.
Proof.
  intros file v revs n g offset o Hc B1 B2 Hat. destruct (conforming_rows _ _ _ Hc) as [Honce _]. unfold entry_object.
  rewrite (object_read (body_of file revs) _ file offset n g o Hat B1 B2).
  - cbn [rbind xnum xgen]. rewrite !N.eqb_refl. reflexivity.
  - intros txt [Ht|(len & _ & Ht)] ->; [exact (Nat.nle_succ_0 _ (object_text_nonempty (fun _ _ => Undef) _ _ Ht))|]. inversion Ht as [dt m g0 eol data g2 Hd _ _ _ _ E].
    apply app_eq_nil in E. destruct E as [-> _]. exact (Nat.nle_succ_0 _ (object_text_nonempty (fun _ _ => Undef) _ _ Hd)).
  - intros txt [Ht|(len & Hlen & Ht)] g3 g4 rest Hg3 Hg4 Hd Hrest.
    + apply parse_before_word; auto. cbn. tauto.
    + apply parse_gap; [exact Hg3|]. apply (parse_stream_text len); [|exact Ht|].
      * intros a b z Hz. destruct (Hlen a b z Hz) as (off' & old' & Hcur' & Hat').
        rewrite (object_found file v revs a b off' old' (OInt z) 2 Hc Hcur'); [reflexivity| |lia].
        destruct Hat' as (dn & g1 & dg & g2 & g3' & txt' & g4' & rest' & H1 & H2 & H3 & H4 & H5 & H6 & H7 & H8 & H9 & H10 & H11 & H12).
        exists dn, g1, dg, g2, g3', txt', g4', rest'. repeat (split; [assumption|]). split; [left; exact H11|exact H12].
      * destruct Ht as [dt m g0 eol data g2 _ _ _ _ _]. apply gap_token_ends; [exact Hg4|]. apply Hd. reflexivity.
Qed.
Lemma stands_content : forall file v revs n g o, conforming file v revs -> stands_for file revs n g o -> o <> ONull ->
  document_objects (content_of file (opened revs)) (opened revs) n g = o /\ names_latest (opened revs) n g.
Proof.
  intros file v revs n g o Hc Hs Hne. destruct (conforming_rows _ _ _ Hc) as [Ho _].
  destruct Hs as [offset older o Hcur Hat| | |]; try congruence. split; [|exact (current_latest _ _ _ _ _ Ho Hcur)].
  destruct (current_bounds _ _ _ _ _ _ Hc Hcur) as [B1 B2]. cbn [generation] in B2.
  unfold document_objects. rewrite (current_resolved _ _ _ _ _ Ho Hcur). unfold content_of. rewrite (entry_loaded _ _ _ _ _ _ _ Hc B1 B2 Hat). reflexivity.
Qed.
Lemma same_live : forall (f f' : store) t, (forall n g, live f t n g -> f' n g = f n g) -> forall n g, live f' t n g -> live f t n g.
Proof.
  intros f f' t H n g L. induction L as [n g Hm|m gm n g _ IH Hm]; [apply live_trailer, Hm|]. apply (live_step _ _ m gm); [exact IH|]. rewrite <- (H m gm IH). exact Hm.
Qed.
Lemma opened_orderly : forall real hash file v revs f t, conforming file v revs -> shows file revs f t -> sound_document real hash f (ODict t) ->
  orderly_document real hash (opened revs) (document_objects (content_of file (opened revs)) (opened revs)) (ODict t) /\
  (forall n g, live f (ODict t) n g -> document_objects (content_of file (opened revs)) (opened revs) n g = f n g) /\
  forall n g, live (document_objects (content_of file (opened revs)) (opened revs)) (ODict t) n g -> live f (ODict t) n g.
Proof.
  intros real hash file v revs f t Hc Hsh [D1 D2 D3].
  set (F := document_objects (content_of file (opened revs)) (opened revs)).
  assert (HF : forall n g, live f (ODict t) n g -> F n g = f n g) by (intros n g L; exact (proj1 (stands_content _ _ _ _ _ _ Hc (Hsh n g L) (D1 n g L)))).
  assert (HL := same_live f F (ODict t) HF). split; [|split; assumption]. constructor.
  - intros n g L. apply HL in L. rewrite (HF n g L). apply D1, L.
  - intros n g L. apply HL in L. exact (proj2 (stands_content _ _ _ _ _ _ Hc (Hsh n g L) (D1 n g L))).
  - intros n g L. apply HL in L. rewrite (HF n g L). apply D2, L.
  - intros n g L. apply HL in L. rewrite (HF n g L). destruct (D3 n g L) as [H|(m & d & H1 & H2)]; [left; exact H|right]. exists m, d. split; [exact H1|].
    intros n' g' m' L' E. apply HL in L'. rewrite (HF n' g' L') in E. exact (H2 n' g' m' L' E).
Qed.

(** ** what is seen does not depend on objects that are not reached *)
Lemma live_resembles : forall real (f F f' : store) t, (forall n g, live f t n g -> F n g = f n g) -> forall k a b,
  (forall n g, mentions n g a -> live f t n g) -> (forall n g, live f t n g -> forall n' g', f n g <> ORef n' g') -> resembles real F f' k a b -> resembles real f f' k a b.
Proof.
  intros real f F f' t HF. induction k as [|k IH]; intros a b Ha Hr H; [exact I|]. cbn [resembles] in *.
  assert (E : seen_at F a = seen_at f a) by (destruct a; try reflexivity; apply HF, Ha, Unreferenced.m_ref). rewrite E in H.
  assert (Hm : forall x n g, (forall n' g', seen_at f a <> ORef n' g') -> mentions n g x -> (mentions n g (seen_at f a)) -> live f t n g).
  { intros x n g Hnr _ Hm. destruct a; cbn [seen_at] in Hm; try (apply Ha; exact Hm). apply (live_step _ _ num gen); [apply Ha, Unreferenced.m_ref|exact Hm]. }
  assert (Hlive : forall n g, mentions n g (seen_at f a) -> live f t n g).
  { intros n g Hm'. destruct a; cbn [seen_at] in Hm'; try (apply Ha; exact Hm'). apply (live_step _ _ num gen); [apply Ha, Unreferenced.m_ref|exact Hm']. }
  destruct H as [|b0|n0|a0 b0 v0 E1 E2|a0 b0 N1 N2 S|l l' F2|m m' (D1 & D2)|m m' d (D1 & D2)].
  - apply ag_null.
  - apply ag_bool.
  - apply ag_name.
  - eapply ag_text; eassumption.
  - apply ag_number; assumption.
  - apply ag_arr. clear - IH Hr F2 Hlive. 
    assert (G : forall x, In x l -> forall n g, mentions n g x -> live f t n g) by (intros x Hx n g Hm; apply Hlive; eapply Unreferenced.m_arr; eassumption).
    clear Hlive. induction F2 as [|x y l l' Hxy F2 IHF]; constructor; [apply IH; [apply G; left; reflexivity|exact Hr|exact Hxy]|apply IHF; intros z Hz; apply G; right; exact Hz].
  - apply ag_dict. split.
    + intros k0 x Hin Hk. destruct (D1 k0 x Hin Hk) as (x' & Hin' & R). exists x'. split; [exact Hin'|]. apply IH; [|exact Hr|exact R]. intros n g Hm'. apply Hlive. eapply Unreferenced.m_dict; eassumption.
    + intros k0 x' Hin Hk. destruct (D2 k0 x' Hin Hk) as (x & Hin' & R). exists x. split; [exact Hin'|]. apply IH; [|exact Hr|exact R]. intros n g Hm'. apply Hlive. eapply Unreferenced.m_dict; eassumption.
  - apply ag_stream. split.
    + intros k0 x Hin Hk. destruct (D1 k0 x Hin Hk) as (x' & Hin' & R). exists x'. split; [exact Hin'|]. apply IH; [|exact Hr|exact R]. intros n g Hm'. apply Hlive. eapply Unreferenced.m_stream; eassumption.
    + intros k0 x' Hin Hk. destruct (D2 k0 x' Hin Hk) as (x & Hin' & R). exists x. split; [exact Hin'|]. apply IH; [|exact Hr|exact R]. intros n g Hm'. apply Hlive. eapply Unreferenced.m_stream; eassumption.
Qed.

(** ** the file that is written *)
Lemma written_once : forall v items t, write_table_file v items t = write_tables v [(items, t)].
Proof.
  intros v items t. unfold write_table_file, write_tables. cbn [append_sections rbind]. unfold append_section.
  destruct (recalculate_lengths items) as [l1| | |]; cbn [rbind]; [|reflexivity..].
  destruct (write_objects None (N.of_nat (List.length (write_header v))) l1) as [body l2].
  destruct (write_xref_table (map fst l2) (ODict (set_size t (recalculate_size (map fst l1))))); cbn [rbind]; reflexivity.
Qed.
Lemma store_resembles : forall real l f', no_references l ->
  (forall n g, (held l n g = ONull /\ f' n g = ONull) \/ same_object (held l n g) (f' n g)) ->
  forall k a, resembles real (held l) f' k a a.
Proof.
  intros real l f' Hn Hsame k a.
  assert (Hself : forall o, (forall n g, o <> ORef n g) -> agree real eq o o).
  { intros o Ho. apply agree_self; [exact Ho|]. destruct o; try exact I; rewrite Forall_forall; reflexivity. }
  apply (bisimulation real _ _ eq); [|reflexivity]. clear a k. intros a b <-. destruct a as [|b|z|neg mm p|nm|v|v|n g|l0|m|m d]; cbn [seen_at]; try (apply Hself; discriminate).
  destruct (Hsame n g) as [(-> & ->)|S]; [apply ag_null|]. assert (Hr := held_no_reference l Hn n g). destruct S as [o _|m m' data H1 H2]; [apply Hself; exact Hr|].
  apply ag_stream. split; intros k v Hin Hk; exists v; (split; [|reflexivity]); apply (H1 k v); try exact Hin; intros ->; apply Hk; left; reflexivity.
Qed.
Lemma stands_read : forall file v r n g o, conforming file v [r] -> stands_for file [r] n g o -> get_object 2 file (opened [r]) n g = Ok o.
Proof.
  intros file v r n g o Hc Hs.
  assert (Ho := opened_tables (fun _ _ => Undef) file v [r] [] 1 Hc (le_n 1)).
  apply (Verif.Props.Conforming.C92_objects_partial (fun _ _ => Undef) file v [r] [] 1 _ Hc (le_n 1) Ho n g o Hs); [|lia].
  intros newer s older offset E Hin x w Hx. destruct newer as [|y [|z newer]]; [destruct Hx|discriminate E|discriminate E].
Qed.
Definition read_store (file : bytes) (c : chain) : store := fun n g => match get_object 2 file c n g with Ok o => o | _ => ONull end.

Lemma pairs_length : forall (A B : Type) (R : A -> B -> Prop) l l', Forall2 R l l' -> List.length l = List.length l'.
Proof. intros A B R l l' F. induction F as [|x y l l' _ _ IH]; cbn [List.length]; [reflexivity|f_equal; exact IH]. Qed.
Lemma written_document : forall real v items t file', psorted items ->
  Forall (fun p => entry_saveable (fst p) /\ (used_in_use (fst p) -> storable (snd p))) items -> writable (ODict t) ->
  sm_find (str "Prev") t = None -> sm_find (str "XRefStm") t = None -> N.of_nat (List.length items) < 2 ^ 63 -> no_references items ->
  (forall e o, In (e, o) items -> xdata e = KFree 0 \/ exists offset, xdata e = KUsed offset true) ->
  write_table_file v items t = Ok file' -> (Z.of_nat (List.length file') <= 10 ^ 10)%Z ->
  exists r' f', conforming file' v [r'] /\ same_trailer t (r_trailer r') /\ (forall n g, stands_for file' [r'] n g (f' n g)) /\
    forall k a, resembles real (held items) f' k a a.
Proof.
  intros real v items t file' Hs Hsv Htw Hprev Hxs Hlen Hnr Hpl Hw Hfile. rewrite written_once in Hw.
  assert (Hsec : section_saveable (items, t)).
  { split; [|split; [|split; [exact Htw|split; [apply not_in_find; [exact Htw|apply str_bytes|exact Hxs]|exact Hlen]]]]; cbn [fst snd].
    - exact Hs.
    - rewrite Forall_forall in Hsv |- *. intros p Hp. destruct (Hsv p Hp) as (A & B). split; [exact A|]. intros off E. apply B. unfold used_in_use. rewrite E. reflexivity. }
  destruct (Verif.Props.Written.C93_saved_partial v [(items, t)] file') as (revs & Hc & Ht & Hm & Hu); try assumption.
  - constructor; [exact Hsec|constructor].
  - constructor; [|constructor]. intros e o next Hin E. destruct (Hpl e o Hin) as [E'|(off & E')]; rewrite E' in E; [|discriminate]. injection E as <-. reflexivity.
  - discriminate.
  - intros s rest x E. assert (s = (items, t)) by congruence. subst s. cbn [snd]. apply not_in_find; [exact Htw|apply str_bytes|exact Hprev].
  - assert (E : exists r', revs = [r']).
    { assert (L := pairs_length _ _ _ _ _ Ht). cbn [map List.length] in L.
      rewrite map_length, rev_length in L. destruct revs as [|r' [|]]; try discriminate L. exists r'. reflexivity. }
    destruct E as (r' & ->). exists r', (read_store file' (opened [r'])). split; [exact Hc|]. split; [cbn in Ht; inversion Ht; assumption|].
    assert (Hnew : forall e o, In (e, o) items -> newest [(items, t)] e o).
    { intros e o Hin. exists [], (items, t), []. split; [reflexivity|]. split; [exact Hin|]. intros x p []. }
    assert (Hall : forall n g, exists o, stands_for file' [r'] n g o /\ ((held items n g = ONull /\ o = ONull) \/ same_object (held items n g) o)).
    { intros n g. destruct (held_cases items n g) as [(e & A & B & C & D)|(E & Hno)].
      - assert (H := Hm e _ (Hnew e _ A)). destruct (Hpl e _ A) as [Ex|(off & Ex)]; [unfold entry_in_use in D; rewrite Ex in D; discriminate D|]. rewrite Ex, B, C in H.
        destruct H as [(o' & S & H) _]. exists o'. split; [exact H|right; exact S].
      - exists ONull. split; [|left; split; [exact E|reflexivity]]. destruct (in_dec N.eq_dec n (map (fun p => xnum (fst p)) items)) as [Hin|Hin].
        + apply in_map_iff in Hin. destruct Hin as ([e o] & En & Hin). cbn [fst] in En. assert (H := Hm e o (Hnew e o Hin)). destruct (Hpl e o Hin) as [Ex|(off & Ex)]; rewrite Ex, En in H; [apply H|].
          destruct H as [_ H]. apply H. intros ->. apply (Hno o). exists e. split; [exact Hin|]. split; [exact En|]. split; [reflexivity|]. unfold entry_in_use. rewrite Ex. reflexivity.
        + apply Hu. intros s p [<-|[]] Hp E'. apply Hin, in_map_iff. exists p. split; [exact E'|exact Hp]. }
    assert (Hval : forall n g, stands_for file' [r'] n g (read_store file' (opened [r']) n g) /\ ((held items n g = ONull /\ read_store file' (opened [r']) n g = ONull) \/ same_object (held items n g) (read_store file' (opened [r']) n g))).
    { intros n g. destruct (Hall n g) as (o & H1 & H2). unfold read_store. rewrite (stands_read _ _ _ _ _ _ Hc H1). split; assumption. }
    split; [intros n g; apply Hval|]. apply store_resembles; [exact Hnr|]. intros n g. apply Hval.
Qed.

(** ** both together *)
Lemma cloned_content : forall real hash order arrange decode fuel file v revs, conforming file v revs -> (List.length revs <= fuel)%nat ->
  forall file', resave real hash order arrange decode fuel file = Ok file' ->
  save_file real hash (content_of file (opened revs)) order arrange v (opened revs) = Ok file'.
Proof.
  intros real hash order arrange decode fuel file v revs Hc Hf file' H. unfold resave in H. rewrite (opened_tables decode file v revs [] fuel Hc Hf) in H. cbn [rbind] in H.
  apply rbind_ok in H. destruct H as (u & _ & H). exact H.
Qed.
Lemma no_xrefstm : forall file v r older, conforming file v (r :: older) -> writable (ODict (r_trailer r)) -> sm_find (str "XRefStm") (r_trailer r) = None.
Proof.
  intros file v r older (offset & Hr & _) Hw. apply not_in_find; [exact Hw|apply str_bytes|]. inversion Hr; subst; assumption.
Qed.

Lemma trailer_map : forall file v revs r, conforming file v revs -> In r revs -> sm_sorted (r_trailer r) /\ sm_keys_ok (r_trailer r).
Proof.
  intros file v revs r (offset & Hr & _) Hin. destruct (revisions_plain _ _ _ Hr) as [_ Hsec]. destruct (Hsec r Hin) as [[text Ht] _].
  destruct Ht. cbn [r_trailer]. eapply text_map; eassumption.
Qed.

Theorem resaved : forall real hash order arrange decode fuel file v r older f file',
  any_order order -> any_arrangement arrange ->
  conforming file v (r :: older) -> (List.length (r :: older) <= fuel)%nat ->
  N.of_nat (Datatypes.S (List.length (flat_map r_rows (r :: older)))) < 2 ^ 63 -> writable (ODict (r_trailer r)) ->
  shows file (r :: older) f (r_trailer r) -> sound_document real hash f (ODict (r_trailer r)) ->
  resave real hash order arrange decode fuel file = Ok file' -> (Z.of_nat (List.length file') <= 10 ^ 10)%Z ->
  exists r' f', conforming file' v [r'] /\ (forall n g, stands_for file' [r'] n g (f' n g)) /\
    same_entries real f f' (r_trailer r) (r_trailer r').
Proof.
  intros real hash order arrange decode fuel file v r older f file' Hord Harr Hc Hf Hcnt Htw Hsh Hsd Hre Hlen.
  apply (cloned_content _ _ _ _ _ _ _ _ _ Hc Hf) in Hre.
  destruct (opened_orderly real hash file v (r :: older) f (r_trailer r) Hc Hsh Hsd) as (Hod & HF & HL).
  set (c := opened (r :: older)) in *. set (content := content_of file c) in *.
  assert (Hpl := opened_plain _ _ _ Hc). fold c in Hpl. assert (Hcount := opened_count (r :: older)). fold c in Hcount.
  assert (Hxs := no_xrefstm _ _ _ _ Hc Htw). unfold save_file in Hre. apply rbind_ok in Hre. destruct Hre as ([items5 T5] & Hopt & Hwrite).
  destruct (optimized real hash content order arrange (Conforming.table_of r) (opened older) items5 T5 Hord Harr Hpl ltac:(change (Conforming.table_of r :: opened older) with c; lia) Htw Hxs Hod Hopt)
    as (Hs5 & Hsave5 & Tw5 & Hprev & Hxstm & Hlen5 & Hn5 & Hpl5 & T1 & Tw & Hheld & Tnone & Tkeep).
  destruct (written_document real v items5 T5 file' Hs5 Hsave5 Tw5 Hprev Hxstm Hlen5 Hn5 Hpl5 Hwrite Hlen) as (r' & f' & Hc' & Ht' & Hst & Hres).
  exists r', f'. split; [exact Hc'|]. split; [exact Hst|].
  assert (Hall : forall k, resembles real (document_objects content c) f' k (ODict T1) (ODict T5)).
  { intros k. apply resembles_trans with (f' := held items5) (b := ODict T5); [apply Hheld|apply Hres]. }
  destruct (writable_parts _ Tw) as (Tsort & Tkeys & _). destruct (writable_parts _ Tw5) as (S5 & K5 & _).
  intros key Hkey. assert (Hb : all_bytes key) by (destruct Hkey as [<-|[<-|[<-|[]]]]; apply str_bytes).
  assert (Hk1 : key <> str "Size" /\ key <> str "Prev" /\ In key trailer_keys).
  { destruct Hkey as [<-|[<-|[<-|[]]]]; (split; [discriminate|]); (split; [discriminate|]); vm_compute; tauto. }
  destruct Hk1 as (Hk1 & Hk2 & Hk3).
  assert (E1 : sm_find key T1 = sm_find key (r_trailer r)) by (apply Tkeep; assumption).
  assert (E5 : sm_find key (r_trailer r') = sm_find key T5).
  { destruct (trailer_map _ _ _ _ Hc' (or_introl eq_refl)) as [M1 M2]. destruct (sm_find key T5) as [b|] eqn:Eb.
    - apply sm_find_in; [assumption..|]. apply (Ht' key b Hk1 Hk2). apply sm_find_in; assumption.
    - destruct (sm_find key (r_trailer r')) as [b|] eqn:Eb'; [|reflexivity]. apply sm_find_in in Eb'; [|assumption..]. apply (Ht' key b Hk1 Hk2) in Eb'.
      apply sm_find_in in Eb'; [congruence|assumption..]. }
  rewrite E5, <- E1. destruct (sm_find key T1) as [a|] eqn:Ea.
  - assert (Ea' := E1). symmetry in Ea'. apply in_find in Ea'; [|exact Htw|exact Hb]. apply sm_find_in in Ea; [|assumption..].
    assert (Hb5 : forall k, exists b, sm_find key T5 = Some b /\ resembles real (document_objects content c) f' k a b).
    { intros k. assert (A := Hall (Datatypes.S k)). cbn [resembles seen_at] in A. inversion A as [| | |? ? v0 T0 _|? ? N0 _ _| |? ? (D1 & _)|]; subst; [discriminate T0|destruct N0|]. destruct (D1 key a Ea ltac:(intros [])) as (b & Hin & R). exists b. split; [apply sm_find_in; assumption|exact R]. }
    destruct (Hb5 O) as (b & Eb & _). rewrite Eb. intros k. destruct (Hb5 k) as (b' & Eb' & R). rewrite Eb in Eb'. injection Eb' as <-.
    apply (live_resembles real f (document_objects content c) f' (ODict (r_trailer r)) HF); [|intros n g L; apply (sd_stored _ _ _ _ Hsd n g L)|exact R].
    intros n g Hm. apply live_trailer. eapply Unreferenced.m_dict; eassumption.
  - rewrite (Tnone key Hb Ea). exact I.
Qed.

(** ** it succeeds *)
Lemma cloned_ok : forall file v revs, conforming file v revs -> rows_lead_to_objects file revs -> clone_sections file (opened revs) (opened revs) = Ok tt.
Proof.
  intros file v revs Hc Hlead. destruct (conforming_rows _ _ _ Hc) as [_ Hrow].
  assert (H : forall l, incl l revs -> clone_sections file (opened revs) (opened l) = Ok tt).
  { induction l as [|s l IH]; intros Hi; [reflexivity|]. cbn [map clone_sections].
    assert (E : forall es, incl es (s_entries (Conforming.table_of s)) -> clone_entries file (opened revs) es = Ok tt).
    { induction es as [|e es IHe]; intros Hes; [reflexivity|]. cbn [clone_entries]. assert (Hin : In s revs) by (apply Hi; left; reflexivity).
      destruct (entries_rows s e (Hes e (or_introl eq_refl))) as (n & w & Hw & ->). assert (R := IHe (fun x Hx => Hes x (or_intror Hx))).
      destruct w as [offset g|g]; cbn [entry xdata]; [|exact R]. destruct (Hrow s n _ Hin Hw) as [B1 B2]. cbn [generation] in B2.
      destruct (Hlead s n offset g Hin Hw) as (o & Hat). rewrite (entry_loaded _ _ _ _ _ _ _ Hc B1 B2 Hat). cbn [rbind]. exact R. }
    rewrite (E _ (incl_refl _)). cbn [rbind]. apply IH. intros x Hx. apply Hi. right. exact Hx. }
  apply H, incl_refl.
Qed.
Theorem resave_succeeds : forall real hash order arrange decode fuel file v r older f,
  any_order order -> any_arrangement arrange ->
  conforming file v (r :: older) -> (List.length (r :: older) <= fuel)%nat ->
  N.of_nat (Datatypes.S (List.length (flat_map r_rows (r :: older)))) < 2 ^ 63 -> writable (ODict (r_trailer r)) ->
  shows file (r :: older) f (r_trailer r) -> sound_document real hash f (ODict (r_trailer r)) ->
  rows_lead_to_objects file (r :: older) -> live_reals_within_range real f (ODict (r_trailer r)) ->
  exists file', resave real hash order arrange decode fuel file = Ok file'.
Proof.
  intros real hash order arrange decode fuel file v r older f Hord Harr Hc Hf Hcnt Htw Hsh Hsd Hlead Hreal.
  unfold resave. rewrite (opened_tables decode file v _ [] fuel Hc Hf). cbn [rbind]. rewrite (cloned_ok _ _ _ Hc Hlead). cbn [rbind].
  destruct (opened_orderly real hash file v (r :: older) f (r_trailer r) Hc Hsh Hsd) as (Hod & HF & HL).
  assert (Hpl := opened_plain _ _ _ Hc). assert (Hcount := opened_count (r :: older)). assert (Hxs := no_xrefstm _ _ _ _ Hc Htw). cbn [map] in *.
  apply save_ok; try assumption; [lia|]. intros n g neg m p L H. apply HL in L. rewrite (HF n g L) in H. exact (Hreal n g neg m p L H).
Qed.

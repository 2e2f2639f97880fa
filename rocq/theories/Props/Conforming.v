(** C92: files that follow the standard are read as the standard says. *)
From Coq Require Import List NArith ZArith Bool Lia String Sorted.
From Coq Require Import List.
From Verif.Model Require Import Base Char Numbers SMap Object Token Parser Arith Lines Xref StartXref Header FileWrite Chain Rebuild Conforming.
From Verif.Spec Require Import Strings Grammar Chain Conforming.
From Verif.Proof Require Import Tac Numbers Strings SMap Token Parser Writer StreamObj Arith Xref StartXref FileWrite Conforming.
Import ListNotations.
Local Open Scope N_scope.

(** Every file with cross-reference tables that follows the standard, whoever wrote it and however often it was updated: it is opened
    with its version and its tables, without searching for objects, and the trailers are those of the sections. *)
Theorem C92_opened : forall decode file v revs left fuel, conforming file v revs -> (List.length revs <= fuel)%nat ->
  exists c, initialize parser_dictionary decode fuel left file = Ok (v, ByTable c) /\ map s_trailer c = map r_trailer revs.
Proof.
  intros decode file v revs left fuel Hc Hf. exists (map table_of revs). split; [|rewrite map_map; reflexivity].
  apply opened_tables; assumption.
Qed.

(** Every reference gives the object that it stands for, streams included, their length given directly or by another object.  Missing:
    references to deleted objects and to former generations of a number give the object that the file had before (C24). *)
Theorem C92_objects_partial : forall decode file v revs left fuel c, conforming file v revs -> (List.length revs <= fuel)%nat ->
  initialize parser_dictionary decode fuel left file = Ok (v, ByTable c) ->
  forall n g o, stands_for file revs n g o -> not_superseded revs n g -> forall k, (2 <= k)%nat -> get_object k file c n g = Ok o.
Proof.
  intros decode file v revs left fuel c Hc Hf Hi n g o Hs Hns k Hk.
  rewrite (opened_tables decode file v revs left fuel Hc Hf) in Hi. assert (Ec : c = map table_of revs) by congruence. subst c. clear Hi.
  destruct (conforming_rows _ _ _ Hc) as [Honce _].
  assert (Hnull : (forall offset older, ~ current revs n (InUse offset g) older) -> get_object k file (map table_of revs) n g = Ok ONull).
  { intros Hn. destruct k as [|k]; [lia|]. cbn [get_object]. rewrite (nothing_found _ _ _ Honce Hns Hn). reflexivity. }
  destruct Hs as [offset older o Hcur Hat|offset g' older Hcur Hne|g' older Hcur|Hn].
  - exact (object_found _ _ _ _ _ _ _ _ _ Hc Hcur Hat Hk).
  - apply Hnull. intros off old Hcur'. assert (E := current_once _ _ _ _ _ _ Honce Hcur Hcur'). cbn [entry] in E. apply Hne. congruence.
  - apply Hnull. intros off old Hcur'. assert (E := current_once _ _ _ _ _ _ Honce Hcur Hcur'). cbn [entry] in E. congruence.
  - apply Hnull. intros off old (newer & s & -> & Hin & _). apply (Hn s (InUse off g)); [apply in_or_app; right; left; reflexivity|exact Hin].
Qed.

(** What is missing, for every file: an update deletes an object as the standard says, with a free row of the next generation; the
    reference then stands for null, and the object is still there. *)
Theorem C92_deleted_refuted : forall decode file v r older left fuel c n g offset oldest o,
  conforming file v (r :: older) -> (List.length (r :: older) <= fuel)%nat ->
  initialize parser_dictionary decode fuel left file = Ok (v, ByTable c) ->
  In (n, Free (g + 1)) (r_rows r) -> current older n (InUse offset g) oldest -> object_at object_text file offset n g o ->
  stands_for file (r :: older) n g ONull /\ forall k, (1 <= k)%nat -> get_object k file c n g = Ok o.
Proof.
  intros decode file v r older left fuel c n g offset oldest o Hc Hf Hi Hin Hcur Hat. split.
  - apply (sf_free _ _ _ _ (g + 1) older). exists [], r. split; [reflexivity|]. split; [exact Hin|]. intros x q [].
  - rewrite (opened_tables decode file v _ left fuel Hc Hf) in Hi. assert (Ec : c = map table_of (r :: older)) by congruence. subst c.
    destruct (conforming_rows _ _ _ Hc) as [Honce Hrow]. inversion Honce as [|? ? Hr Honce']; subst.
    intros k Hk. destruct k as [|k]; [lia|]. cbn [get_object].
    assert (E : resolve_entry n g (map table_of (r :: older)) = Some {| xnum := n; xgen := g; xdata := KUsed (Z.of_N offset) true |}).
    { rewrite <- (current_resolved older n g offset oldest Honce' Hcur). unfold resolve_entry. cbn [map chain_entry].
      rewrite (proj1 (table_find n r Hr) _ Hin). cbn [entry xgen]. replace (g + 1 =? g) with false by lia. reflexivity. }
    rewrite E. destruct Hcur as (newer & s & -> & Hs & _).
    destruct (Hrow s n (InUse offset g)) as [B1 B2]; [right; apply in_or_app; right; left; reflexivity|exact Hs|]. cbn [generation] in B2.
    rewrite (direct_read _ file offset n g o Hat B1 B2). cbn [rbind]. rewrite !N.eqb_refl. reflexivity.
Qed.

(** ** A case: a file with carriage returns, comments, close-set keywords, a stream whose length is another object, and an update *)
Definition catalog (k : string) : obj := ODict [(str k, OName (str "Catalog"))].
Definition stream_dict : list (bytes * obj) := [(str "Length", ORef 3 0)].
Definition old_trailer : list (bytes * obj) := [(str "Root", ORef 1 0); (str "Size", OInt 5)].
Definition new_trailer (prev : N) : list (bytes * obj) := [(str "Prev", OInt (Z.of_N prev)); (str "Root", ORef 1 0); (str "Size", OInt 5)].
Definition ten (n : N) : bytes := pad_zero 10 (to_string_N n).
Definition place (s : bytes) : N := N.of_nat (List.length s).
Definition piece0 : bytes := str "%PDF-1.4" ++ [13] ++ [37; 200; 201] ++ [13].
Definition piece1 : bytes := str "1 0 obj" ++ [13] ++ to_pdf (catalog "Type") ++ str "endobj" ++ [13].
Definition piece2 : bytes := str "2  0 obj" ++ to_pdf (ODict stream_dict) ++ str "stream" ++ [13; 10] ++ str "endstream" ++ [10] ++ str "endstream" ++ [10] ++ str "endobj" ++ [13; 10].
Definition piece3 : bytes := str "3 0" ++ [10] ++ str "obj 9 % the length" ++ [13] ++ str "endobj" ++ [10].
Definition piece4 : bytes := str "4 0 obj" ++ [10] ++ str "true" ++ [10] ++ str "endobj" ++ [10].
Definition at1 : N := place piece0.
Definition at2 : N := place (piece0 ++ piece1).
Definition at3 : N := place (piece0 ++ piece1 ++ piece2).
Definition at4 : N := place (piece0 ++ piece1 ++ piece2 ++ piece3 ++ piece4).
Definition at4' : N := place (piece0 ++ piece1 ++ piece2 ++ piece3).
Definition rows0 : bytes := ten 0 ++ str " 65535 f" ++ [13; 10] ++ ten at1 ++ str " 00000 n" ++ [13; 10].
Definition rows2 : bytes := ten at2 ++ str " 00000 n" ++ [32; 10] ++ ten at3 ++ str " 00000 n" ++ [32; 13] ++ ten at4' ++ str " 00000 n" ++ [13; 10].
Definition table0 : bytes := str "xref" ++ [13] ++ str "0 2" ++ [13; 10] ++ rows0 ++ str "2 3" ++ [10] ++ rows2 ++ str "trailer" ++ to_pdf (ODict old_trailer).
Definition end0 : bytes := str "startxref" ++ [13] ++ to_string_N at4 ++ [13] ++ str "%%EOF" ++ [13].
Definition piece5 : bytes := str "1 0 obj" ++ to_pdf (catalog "Kind") ++ str " endobj" ++ [10].
Definition at5 : N := place (piece0 ++ piece1 ++ piece2 ++ piece3 ++ piece4 ++ table0 ++ end0).
Definition at6 : N := place (piece0 ++ piece1 ++ piece2 ++ piece3 ++ piece4 ++ table0 ++ end0 ++ piece5).
Definition table1 : bytes := str "xref" ++ [10] ++ str "1 1" ++ [10] ++ (ten at5 ++ str " 00000 n" ++ [32; 10]) ++ str "4 1" ++ [13] ++ (str "0000000000 00001 f" ++ [32; 10]) ++ str "trailer" ++ [10] ++ to_pdf (ODict (new_trailer at4)).
Definition end1 : bytes := [10] ++ str "startxref" ++ [13; 10] ++ str "000" ++ to_string_N at6 ++ [10] ++ str "%%EOF".
Definition sample : bytes := piece0 ++ piece1 ++ piece2 ++ piece3 ++ piece4 ++ table0 ++ end0 ++ piece5 ++ table1 ++ end1.
Definition older_rev : revision := {| r_rows := [(0, Free 65535); (1, InUse at1 0); (2, InUse at2 0); (3, InUse at3 0); (4, InUse at4' 0)]; r_trailer := old_trailer |}.
Definition newer_rev : revision := {| r_rows := [(1, InUse at5 0); (4, Free 1)]; r_trailer := new_trailer at4 |}.

Lemma number_digits : forall n, number_text (to_string_N n) n.
Proof. intros n. destruct (padded_decimal 0 n) as (H1 & H2 & H3). repeat split; assumption. Qed.
Lemma number_ten : forall n, number_text (ten n) n.
Proof. intros n. destruct (padded_decimal 10 n) as (H1 & H2 & H3). repeat split; assumption. Qed.
Lemma all_digits : forall ds, forallb (fun c => (48 <=? c) && (c <=? 57)) ds = true -> Forall decimal_digit ds.
Proof. intros ds H. rewrite forallb_forall in H. apply Forall_forall. intros c Hc. specialize (H c Hc). unfold decimal_digit. lia. Qed.
Ltac number := split; [discriminate|split; [apply all_digits; reflexivity|reflexivity]].
Lemma used_row : forall n e, List.length (ten n) = 10%nat -> In e [[32; 13]; [32; 10]; [13; 10]] -> row_text (ten n ++ str " 00000 n" ++ e) (InUse n 0).
Proof.
  intros n e L He. exists (ten n), (str "00000"), 110, e, n, 0. split; [reflexivity|]. split; [exact L|]. split; [apply number_ten|]. split; [reflexivity|].
  split; [number|]. split; [lia|]. split; [exact He|]. auto.
Qed.

Lemma writable_catalog : forall k, In k ["Type"; "Kind"]%string -> writable (catalog k).
Proof.
  intros k Hk. assert (Hb : all_bytes (str k)) by apply str_bytes. apply w_dict.
  - repeat constructor.
  - constructor; [split; [exact Hb|discriminate]|constructor].
  - constructor; [apply w_name, str_bytes|constructor].
Qed.
Lemma key_order : forall a b : bytes, buffer_ltb a b = true -> all_bytes a -> all_bytes b -> key_lt a b.
Proof. intros a b H Ha Hb. apply ltb_key_lt; assumption. Qed.
Lemma writable_old : writable (ODict old_trailer).
Proof.
  apply w_dict.
  - repeat constructor; apply key_order; auto using str_bytes; reflexivity.
  - repeat constructor; cbn [fst snd]; try apply str_bytes; discriminate.
  - unfold old_trailer. cbn [map snd]. repeat (apply Forall_cons; [first [apply w_ref; lia|apply w_int; lia]|]). apply Forall_nil.
Qed.
Lemma writable_new : forall p, p < 2 ^ 63 -> writable (ODict (new_trailer p)).
Proof.
  intros p Hp. apply w_dict.
  - repeat constructor; apply key_order; auto using str_bytes; reflexivity.
  - repeat constructor; cbn [fst snd]; try apply str_bytes; discriminate.
  - change (2 ^ 63) with 9223372036854775808 in Hp. unfold new_trailer. cbn [map snd]. repeat (apply Forall_cons; [first [apply w_ref; lia|apply w_int; lia]|]). apply Forall_nil.
Qed.
Lemma writable_stream : writable (ODict stream_dict).
Proof.
  apply w_dict.
  - repeat constructor.
  - repeat constructor; cbn [fst snd]; try apply str_bytes; discriminate.
  - unfold stream_dict. cbn [map snd]. apply Forall_cons; [apply w_ref; lia|apply Forall_nil].
Qed.

Lemma le_cr : line_end [13]. Proof. right. left. reflexivity. Qed.
Lemma le_lf : line_end [10]. Proof. left. reflexivity. Qed.
Lemma le_crlf : line_end [13; 10]. Proof. right. right. left. reflexivity. Qed.
Lemma small_place : forall n, n < 1000 -> n < 2 ^ 63. Proof. intros n H. change (2 ^ 63) with 9223372036854775808. lia. Qed.
Lemma sample_old : section_text table0 older_rev.
Proof.
  assert (H := sec [13] [str "0 2" ++ [13; 10] ++ rows0; str "2 3" ++ [10] ++ rows2]
    [[(0, Free 65535); (1, InUse at1 0)]; [(2, InUse at2 0); (3, InUse at3 0); (4, InUse at4' 0)]] [] (to_pdf (ODict old_trailer)) old_trailer le_cr).
  change (section_text (str "xref" ++ [13] ++ concat [str "0 2" ++ [13; 10] ++ rows0; str "2 3" ++ [10] ++ rows2] ++ str "trailer" ++ [] ++ to_pdf (ODict old_trailer)) older_rev).
  apply H; clear H.
  - constructor; [|constructor; [|constructor]].
    + apply (sub (str "0") 0 (str "2") [13; 10] [ten 0 ++ str " 65535 f" ++ [13; 10]; ten at1 ++ str " 00000 n" ++ [13; 10]] [Free 65535; InUse at1 0]);
        [number|number|exact le_crlf| |discriminate].
      constructor; [|constructor; [|constructor]].
      * exists (ten 0), (str "65535"), 102, [13; 10], 0, 65535. split; [reflexivity|]. split; [reflexivity|]. split; [number|]. split; [reflexivity|].
        split; [number|]. split; [lia|]. split; [cbn; tauto|]. auto.
      * apply used_row; [reflexivity|cbn; tauto].
    + apply (sub (str "2") 2 (str "3") [10] [ten at2 ++ str " 00000 n" ++ [32; 10]; ten at3 ++ str " 00000 n" ++ [32; 13]; ten at4' ++ str " 00000 n" ++ [13; 10]]
        [InUse at2 0; InUse at3 0; InUse at4' 0]); [number|number|exact le_lf| |discriminate].
      constructor; [|constructor; [|constructor; [|constructor]]]; apply used_row; first [reflexivity|cbn; tauto].
  - repeat constructor; cbn; intuition discriminate.
  - constructor.
  - apply to_pdf_text, writable_old.
Qed.
Lemma sample_new : section_text table1 newer_rev.
Proof.
  assert (H := sec [10] [str "1 1" ++ [10] ++ (ten at5 ++ str " 00000 n" ++ [32; 10]); str "4 1" ++ [13] ++ (str "0000000000 00001 f" ++ [32; 10])] [[(1, InUse at5 0)]; [(4, Free 1)]] [10] (to_pdf (ODict (new_trailer at4))) (new_trailer at4) le_lf).
  change (section_text (str "xref" ++ [10] ++ concat [str "1 1" ++ [10] ++ (ten at5 ++ str " 00000 n" ++ [32; 10]); str "4 1" ++ [13] ++ (str "0000000000 00001 f" ++ [32; 10])] ++ str "trailer" ++ [10] ++ to_pdf (ODict (new_trailer at4))) newer_rev).
  apply H; clear H.
  - constructor; [|constructor; [|constructor]].
    + apply (sub (str "1") 1 (str "1") [10] [ten at5 ++ str " 00000 n" ++ [32; 10]] [InUse at5 0]); [number|number|exact le_lf| |discriminate].
      constructor; [|constructor]. apply used_row; [reflexivity|cbn; tauto].
    + apply (sub (str "4") 4 (str "1") [13] [str "0000000000 00001 f" ++ [32; 10]] [Free 1]); [number|number|exact le_cr| |discriminate].
      constructor; [|constructor]. exists (str "0000000000"), (str "00001"), 102, [32; 10], 0, 1. split; [reflexivity|]. split; [reflexivity|]. split; [number|].
      split; [reflexivity|]. split; [number|]. split; [lia|]. split; [cbn; tauto|]. auto.
  - repeat constructor; cbn; intuition discriminate.
  - exact gap10.
  - apply to_pdf_text, writable_new, small_place. vm_compute. reflexivity.
Qed.
Lemma absent_key : forall k (m : list (bytes * obj)), existsb (fun e => bytes_eqb (fst e) k) m = false -> forall v, ~ In (k, v) m.
Proof.
  intros k m H v Hin. assert (E : existsb (fun e => bytes_eqb (fst e) k) m = true); [|congruence]. apply existsb_exists. exists (k, v). split; [exact Hin|].
  cbn [fst]. clear. induction k as [|x k IH]; [reflexivity|]. cbn. rewrite N.eqb_refl. exact IH.
Qed.
Lemma sample_conforms : conforming sample PDF14 [newer_rev; older_rev].
Proof.
  exists at6. split; [|split; [|split]].
  - apply (rev_newer sample at6 table1 newer_rev [10] ([13; 10] ++ str "000" ++ to_string_N at6 ++ [10] ++ str "%%EOF") at4).
    + exists (piece0 ++ piece1 ++ piece2 ++ piece3 ++ piece4 ++ table0 ++ end0 ++ piece5). split; [|reflexivity]. unfold sample. rewrite <- !app_assoc. reflexivity.
    + exact sample_new.
    + exact gap10.
    + left. cbn. tauto.
    + left. reflexivity.
    + apply absent_key. reflexivity.
    + apply (rev_oldest sample at4 table0 older_rev [] ([13] ++ to_string_N at4 ++ [13] ++ str "%%EOF" ++ [13] ++ piece5 ++ table1 ++ end1)).
      * exists (piece0 ++ piece1 ++ piece2 ++ piece3 ++ piece4). split; [|reflexivity]. unfold sample, end0. rewrite <- !app_assoc. reflexivity.
      * exact sample_old.
      * constructor.
      * left. cbn. tauto.
      * apply absent_key. reflexivity.
      * apply absent_key. reflexivity.
  - exists [13]. eexists. split; [exact le_cr|]. unfold sample, piece0. rewrite <- !app_assoc. reflexivity.
  - exists (piece0 ++ piece1 ++ piece2 ++ piece3 ++ piece4 ++ table0 ++ end0 ++ piece5 ++ table1), 10, [13; 10], (str "000" ++ to_string_N at6), [10], [].
    split; [cbn; tauto|]. split; [exact le_crlf|]. split; [number|]. split; [exact le_lf|]. split; [constructor|].
    split; [unfold sample, end1; rewrite <- !app_assoc; reflexivity|]. vm_compute. discriminate.
  - apply small_place. vm_compute. reflexivity.
Qed.

Ltac blanks := repeat (apply gap_white; [cbn; tauto|]); apply gap_nil.
Lemma sample_newest : current [newer_rev; older_rev] 1 (InUse at5 0) [older_rev].
Proof. exists [], newer_rev. split; [reflexivity|]. split; [left; reflexivity|]. intros x r []. Qed.
Lemma sample_older : forall n r, n <> 1 -> n <> 4 -> In (n, r) (r_rows older_rev) -> current [newer_rev; older_rev] n r [].
Proof.
  intros n r Hn Hn' Hin. exists [newer_rev], older_rev. split; [reflexivity|]. split; [exact Hin|]. intros x r' [<-|[]] [E|[E|[]]]; apply pair_equal_spec in E; destruct E; subst; auto.
Qed.
Lemma sample_length : integer_object sample [newer_rev; older_rev] 3 0 9.
Proof.
  exists at3, []. split; [apply sample_older; [discriminate|discriminate|right; right; right; left; reflexivity]|].
  exists (str "3"), [32], (str "0"), [10], [32], (str "9"), (str " % the length" ++ [13]), ([10] ++ piece4 ++ table0 ++ end0 ++ piece5 ++ table1 ++ end1).
  split. { exists (piece0 ++ piece1 ++ piece2). split; [|reflexivity]. unfold sample, piece3. rewrite <- !app_assoc. reflexivity. }
  split; [number|]. split; [number|]. split; [blanks|]. split; [discriminate|]. split; [blanks|]. split; [discriminate|]. split; [blanks|].
  split. { apply gap_white; [cbn; tauto|]. apply (gap_comment (str " the length") [13] []); [|cbn; tauto|constructor]. repeat constructor; discriminate. }
  split; [left; cbn; tauto|]. split. { apply (ot_int [] false (str "9")); [constructor|discriminate|apply all_digits; reflexivity|cbn; lia]. }
  split; [discriminate|left; cbn; tauto].
Qed.
Lemma sample_catalog : stands_for sample [newer_rev; older_rev] 1 0 (catalog "Kind").
Proof.
  apply (sf_object _ _ _ _ at5 [older_rev] _ sample_newest).
  exists (str "1"), [32], (str "0"), [32], [], (to_pdf (catalog "Kind")), [32], ([10] ++ table1 ++ end1).
  split. { exists (piece0 ++ piece1 ++ piece2 ++ piece3 ++ piece4 ++ table0 ++ end0). split; [|reflexivity]. unfold sample, piece5. rewrite <- !app_assoc. reflexivity. }
  split; [number|]. split; [number|]. split; [blanks|]. split; [discriminate|]. split; [blanks|]. split; [discriminate|]. split; [blanks|]. split; [blanks|].
  split; [right; cbn; tauto|]. split; [left; apply to_pdf_text, writable_catalog; cbn; tauto|]. split; [discriminate|left; cbn; tauto].
Qed.
Lemma sample_stream : stands_for sample [newer_rev; older_rev] 2 0 (OStream stream_dict (str "endstream")).
Proof.
  apply (sf_object _ _ _ _ at2 []); [apply sample_older; [discriminate|discriminate|right; right; left; reflexivity]|].
  exists (str "2"), [32; 32], (str "0"), [32], [], (to_pdf (ODict stream_dict) ++ [] ++ str "stream" ++ [13; 10] ++ str "endstream" ++ [10] ++ str "endstream"), [10],
    ([13; 10] ++ piece3 ++ piece4 ++ table0 ++ end0 ++ piece5 ++ table1 ++ end1).
  split. { exists (piece0 ++ piece1). split; [|reflexivity]. unfold sample, piece2. rewrite <- !app_assoc. reflexivity. }
  split; [number|]. split; [number|]. split; [blanks|]. split; [discriminate|]. split; [blanks|]. split; [discriminate|]. split; [blanks|]. split; [blanks|].
  split; [right; cbn; tauto|]. split; [|split; [discriminate|left; cbn; tauto]].
  right. exists (fun n g => if (n =? 3) && (g =? 0) then Some 9%Z else None). split.
  - intros n g z E. destruct (n =? 3) eqn:E1; [|discriminate E]. destruct (g =? 0) eqn:E2; [|discriminate E]. apply N.eqb_eq in E1, E2. subst n g.
    cbn [andb] in E. assert (z = 9%Z) by congruence. subst z. exact sample_length.
  - apply stt; [apply to_pdf_text, writable_stream|constructor|cbn; tauto|blanks|]. right. exists 3, 0. split; [left; reflexivity|reflexivity].
Qed.
Lemma sample_none : stands_for sample [newer_rev; older_rev] 9 0 ONull.
Proof.
  apply sf_unknown. intros x r [<-|[<-|[]]] H; cbn [r_rows newer_rev older_rev] in H; repeat (destruct H as [H|H]; [apply pair_equal_spec in H; destruct H as [H _]; discriminate H|]); exact H.
Qed.
Lemma sample_generations : forall n, n <> 4 -> not_superseded [newer_rev; older_rev] n 0.
Proof.
  intros n Hn newer s older offset E Hin x r Hx Hr.
  destruct newer as [|a [|b newer]]; [destruct Hx| |].
  - cbn [app] in E. assert (a = newer_rev) by congruence. destruct Hx as [<-|[]]. subst a. destruct Hr as [Hr|[Hr|[]]]; apply pair_equal_spec in Hr; destruct Hr as [Hr <-]; [reflexivity|symmetry in Hr; contradiction].
  - apply (f_equal (@List.length _)) in E. rewrite app_length in E. cbn [List.length] in E. lia.
Qed.

Lemma sample_removed : current [older_rev] 4 (InUse at4' 0) [] /\ object_at object_text sample at4' 4 0 (OBool true).
Proof.
  split. { exists [], older_rev. split; [reflexivity|]. split; [right; right; right; right; left; reflexivity|]. intros x r []. }
  exists (str "4"), [32], (str "0"), [32], [10], (str "true"), [10], ([10] ++ table0 ++ end0 ++ piece5 ++ table1 ++ end1).
  split. { exists (piece0 ++ piece1 ++ piece2 ++ piece3). split; [|reflexivity]. unfold sample, piece4. rewrite <- !app_assoc. reflexivity. }
  split; [number|]. split; [number|]. split; [blanks|]. split; [discriminate|]. split; [blanks|]. split; [discriminate|]. split; [blanks|]. split; [blanks|].
  split; [left; cbn; tauto|]. split; [constructor|]. split; [discriminate|left; cbn; tauto].
Qed.

Example C92_case : forall decode left, exists c,
  initialize parser_dictionary decode 2 left sample = Ok (PDF14, ByTable c) /\ map s_trailer c = [new_trailer at4; old_trailer] /\
  get_object 2 sample c 1 0 = Ok (catalog "Kind") /\ get_object 2 sample c 2 0 = Ok (OStream stream_dict (str "endstream")) /\
  get_object 2 sample c 9 0 = Ok ONull /\ get_object 2 sample c 4 0 = Ok (OBool true) /\ stands_for sample [newer_rev; older_rev] 4 0 ONull.
Proof.
  intros decode left. destruct (C92_opened decode sample PDF14 [newer_rev; older_rev] left 2 sample_conforms (le_n 2)) as (c & Hi & Ht).
  exists c. split; [exact Hi|]. split; [exact Ht|].
  assert (H := fun n o Hn Hs => C92_objects_partial decode sample PDF14 [newer_rev; older_rev] left 2 c sample_conforms (le_n 2) Hi n 0 o Hs (sample_generations n Hn) 2%nat (le_n 2)).
  split; [apply H; [discriminate|exact sample_catalog]|]. split; [apply H; [discriminate|exact sample_stream]|].
  split; [apply H; [discriminate|exact sample_none]|]. destruct sample_removed as [Hc Ho].
  destruct (C92_deleted_refuted decode sample PDF14 newer_rev [older_rev] left 2 c 4 0 at4' [] (OBool true) sample_conforms (le_n 2) Hi) as [Hs Hg];
    [right; left; reflexivity|exact Hc|exact Ho|]. split; [apply Hg; lia|exact Hs].
Qed.

Print Assumptions C92_opened.
Print Assumptions C92_objects_partial.
Print Assumptions C92_deleted_refuted.

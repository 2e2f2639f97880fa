(** C94: files with cross-reference streams and object streams that follow the standard are read as the standard says. *)
From Coq Require Import List NArith ZArith Bool Lia String Sorted.
From Coq Require Import List.
From Verif.Model Require Import Base Char Numbers SMap Object Token Parser Arith Lines Xref StartXref Header FileWrite Chain ObjStream Rebuild Compressed.
From Verif.Spec Require Import Strings Grammar Conforming Compressed.
From Verif.Proof Require Import Tac Numbers Strings SMap Token Parser Writer StreamObj Arith Xref StartXref FileWrite Conforming Compressed.
Import ListNotations.
Local Open Scope N_scope.

(** Every file that follows the standard, with cross-reference tables, cross-reference streams or both: it is opened with its version and
    its sections, without searching for objects.  The row of a cross-reference stream for itself need not even be right.  Missing: rows of types that the standard keeps for later, and rows without a type. *)
Theorem C94_opened_partial : forall decode file strict v revs left fuel, follows decode file strict v revs -> types_given revs -> rows_known revs ->
  (List.length revs <= fuel)%nat ->
  exists c, initialize parser_dictionary decode fuel left file = Ok (v, ByTable c) /\ map s_trailer c = map v_trailer revs.
Proof.
  intros decode file strict v revs left fuel H Hty Hk Hf. destruct (opened_any decode file v revs left fuel H Hty Hk Hf) as (c & E & L). exists c. split; [exact E|].
  clear - L. induction L as [|r s revs c Hl L IH]; [reflexivity|]. cbn [map]. rewrite (sl_trailer _ _ Hl), IH. reflexivity.
Qed.

(** Every reference gives the object that it stands for, whether that is at an offset, a stream, or in an object stream.  Missing: also
    numbers that were deleted or given to another object (C24), and object streams with objects that no section lists (C65). *)
Theorem C94_objects_partial : forall decode file strict v revs left fuel c, follows decode file strict v revs -> types_given revs -> rows_known revs ->
  members_listed decode file revs -> (List.length revs <= fuel)%nat -> initialize parser_dictionary decode fuel left file = Ok (v, ByTable c) ->
  forall n g o, means decode file revs n g o -> number_kept revs n g -> forall k, (4 <= k)%nat -> get_object decode k file c n g = Ok o.
Proof.
  intros decode file strict v revs left fuel c H Hty Hkn Hml Hf Hi n g o Hm Hk k Hk4.
  destruct (opened_any decode file v revs left fuel H Hty Hkn Hf) as (c' & E & L). assert (c' = c) by congruence. subst c'. clear E Hi.
  destruct (file_start _ _ _ _ H) as (offset0 & Hh & _ & _). assert (Hrows := row_number _ _ _ _ Hh).
  destruct k as [|[|[|[|k]]]]; [lia|lia|lia|lia|].
  assert (Hnull : (forall q, in_use q -> row_generation q = g -> ~ listed_last revs n q) -> get_object decode (S (S (S (S k)))) file c n g = Ok ONull).
  { intros Hn. exact (get_nothing decode file revs c L _ n g Hk Hn). }
  destruct Hm as [offset o Hl Hat|o -> Hp|offset g' Hl Hne|s i Hl Hne|g' Hl|t Hl|Hn].
  - exact (get_offset decode file revs c L Hrows Hml k n offset g o Hl Hat).
  - exact (get_packed decode file revs c L Hrows Hml (S k) n o Hp).
  - apply Hnull. intros q Hu Hg Hq. rewrite <- (last_once _ _ _ _ _ L Hl Hq) in Hg. exact (Hne Hg).
  - apply Hnull. intros q Hu Hg Hq. rewrite <- (last_once _ _ _ _ _ L Hl Hq) in Hg. apply Hne. symmetry. exact Hg.
  - apply Hnull. intros q Hu Hg Hq. rewrite <- (last_once _ _ _ _ _ L Hl Hq) in Hu. exact Hu.
  - apply Hnull. intros q Hu Hg Hq. rewrite <- (last_once _ _ _ _ _ L Hl Hq) in Hu. exact Hu.
  - apply Hnull. intros q Hu Hg (newer & s & older & -> & Hin & _). apply (Hn s q); [apply in_or_app; right; left; reflexivity|exact Hin].
Qed.

(** What is missing: a cross-reference stream may leave out the type of its rows, which then are objects at offsets.  Such a file is
    opened, and every reference to its objects gives null. *)
Theorem C94_default_type_refuted : forall decode file v r left fuel n0 g0 l, follows_standard decode file v [r] -> v_self r = Some (n0, g0) ->
  In (str "W", OArr (OInt 0 :: l)) (v_trailer r) -> (1 <= fuel)%nat ->
  exists c, initialize parser_dictionary decode fuel left file = Ok (v, ByTable c) /\
  forall n g k, n <> n0 -> (1 <= k)%nat -> get_object decode k file c n g = Ok ONull.
Proof.
  intros decode file v r left fuel n0 g0 l H Hs HW Hf. destruct (untyped_opened decode file v r left fuel n0 g0 l H Hs HW Hf) as (c & E & R). exists c. split; [exact E|].
  intros n g k Hn Hk. destruct k as [|k]; [lia|]. cbn [get_object]. rewrite (R n g Hn). reflexivity.
Qed.

(** A row of a type that the standard keeps for later stands for null.  A file with one is not opened by its sections: the library
    searches the whole file for objects, or fails. *)
Theorem C94_reserved_refuted : forall decode file v revs left fuel r n t, follows_standard decode file v revs -> types_given revs -> (List.length revs <= fuel)%nat ->
  In r revs -> In (n, Reserved t) (v_rows r) -> forall w c, initialize parser_dictionary decode fuel left file <> Ok (w, ByTable c).
Proof.
  intros decode file v revs left fuel r n t H Hty Hf Hr Hin w c Hi. destruct (file_start _ _ _ _ H) as (offset & Hh & E1 & E2).
  destruct (history_reads decode file offset revs Hh Hty fuel [] Hf) as [_ E].
  assert (Ex : Exists (fun r => Exists reserved (map snd (v_rows r))) revs).
  { apply Exists_exists. exists r. split; [exact Hr|]. apply Exists_exists. exists (Reserved t). split; [|exact I]. apply in_map_iff. exists (n, Reserved t). auto. }
  unfold initialize in Hi. rewrite E1 in Hi. cbn [rbind] in Hi. rewrite E2 in Hi. cbn [rbind] in Hi. unfold read_chain in Hi. rewrite (E Ex) in Hi. cbn [rbind recoverable] in Hi.
  destruct (find_all_objects _ _ _ _); cbn [rbind] in Hi; congruence.
Qed.

(** ** Cases: a file with an object stream, whose length is another object, and a stream whose length is in the object stream *)
Definition same (m : list (list N * obj)) (d : list N) : res (list N) := Ok d.
Definition packed_body : bytes := str "1 0 4 5 6 13 true [1 0 R] 3".
Definition objstm : list (bytes * obj) := [(str "First", OInt 13); (str "Length", ORef 3 0); (str "N", OInt 3); (str "Type", OName (str "ObjStm"))].
Definition content : list (bytes * obj) := [(str "Length", ORef 6 0)].
Definition place (s : bytes) : N := N.of_nat (List.length s).
Definition piece0 : bytes := str "%PDF-1.5" ++ [10].
Definition piece2 : bytes := str "2 0 obj" ++ to_pdf (ODict objstm) ++ str "stream" ++ [10] ++ packed_body ++ [10] ++ str "endstream" ++ [10] ++ str "endobj" ++ [10].
Definition piece3 : bytes := str "3 0 obj 27 endobj" ++ [10].
Definition piece5 : bytes := str "5 0 obj" ++ to_pdf (ODict content) ++ str "stream" ++ [10] ++ str "abc" ++ [10] ++ str "endstream" ++ [10] ++ str "endobj" ++ [10].
Definition at2 : N := place piece0.
Definition at3 : N := place (piece0 ++ piece2).
Definition at5 : N := place (piece0 ++ piece2 ++ piece3).
Definition at7 : N := place (piece0 ++ piece2 ++ piece3 ++ piece5).
Definition xdict (w1 : nat) (data : bytes) : list (bytes * obj) :=
  [(str "Index", OArr [OInt 0; OInt 8]); (str "Length", OInt (Z.of_nat (List.length data))); (str "Size", OInt 8); (str "Type", OName (str "XRef"));
   (str "W", OArr [OInt (Z.of_nat w1); OInt 2; OInt 2])].
Definition piece7 (w1 : nat) (data : bytes) : bytes :=
  str "7 0 obj" ++ to_pdf (ODict (xdict w1 data)) ++ str "stream" ++ [10] ++ data ++ [10] ++ str "endstream" ++ [10] ++ str "endobj".
Definition ending : bytes := [10] ++ str "startxref" ++ [10] ++ to_string_N at7 ++ [10] ++ str "%%EOF".
Definition make (w1 : nat) (data : bytes) : bytes := piece0 ++ piece2 ++ piece3 ++ piece5 ++ piece7 w1 data ++ ending.
Definition rev_of (w1 : nat) (data : bytes) (rows : list entry_row) : revision :=
  {| v_rows := combine (map (fun i => 0 + N.of_nat i) (List.seq 0 (List.length rows))) rows; v_trailer := xdict w1 data; v_self := Some (7, 0) |}.

Lemma all_digits : forall ds, forallb (fun c => (48 <=? c) && (c <=? 57)) ds = true -> Forall decimal_digit ds.
Proof. intros ds H. rewrite forallb_forall in H. apply Forall_forall. intros c Hc. specialize (H c Hc). unfold decimal_digit. lia. Qed.
Ltac number := split; [discriminate|split; [apply all_digits; reflexivity|reflexivity]].
Ltac blanks := repeat (apply gap_white; [cbn; tauto|]); apply gap_nil.
Lemma key_order : forall a b : bytes, buffer_ltb a b = true -> all_bytes a -> all_bytes b -> key_lt a b.
Proof. intros a b H Ha Hb. apply ltb_key_lt; assumption. Qed.
Ltac value := first [apply w_int; lia|apply w_ref; lia|apply w_name, str_bytes|apply w_arr; repeat (apply Forall_cons; [apply w_int; lia|]); apply Forall_nil].
Lemma writable_xdict : forall w1 data, (w1 <= 1)%nat -> (List.length data <= 100)%nat -> writable (ODict (xdict w1 data)).
Proof.
  intros w1 data H1 H2. apply w_dict.
  - repeat constructor; apply key_order; auto using str_bytes; reflexivity.
  - repeat constructor; cbn [fst snd]; try apply str_bytes; discriminate.
  - unfold xdict. cbn [map snd]. repeat (apply Forall_cons; [value|]). apply Forall_nil.
Qed.
Lemma writable_objstm : writable (ODict objstm).
Proof.
  apply w_dict.
  - repeat constructor; apply key_order; auto using str_bytes; reflexivity.
  - repeat constructor; cbn [fst snd]; try apply str_bytes; discriminate.
  - unfold objstm. cbn [map snd]. repeat (apply Forall_cons; [value|]). apply Forall_nil.
Qed.
Lemma writable_content : writable (ODict content).
Proof.
  apply w_dict.
  - repeat constructor.
  - repeat constructor; cbn [fst snd]; try apply str_bytes; discriminate.
  - unfold content. cbn [map snd]. apply Forall_cons; [value|apply Forall_nil].
Qed.

Lemma made_self : forall w1 data, (w1 <= 1)%nat -> (List.length data <= 100)%nat ->
  object_at (stream_text (fun _ _ => None)) (make w1 data) at7 7 0 (OStream (xdict w1 data) data).
Proof.
  intros w1 data Hw Hd.
  exists (str "7"), [32], (str "0"), [32], [], (to_pdf (ODict (xdict w1 data)) ++ [] ++ str "stream" ++ [10] ++ data ++ [10] ++ str "endstream"), [10], ending.
  split. { exists (piece0 ++ piece2 ++ piece3 ++ piece5). split; [|reflexivity]. unfold make, piece7. rewrite <- !app_assoc. reflexivity. }
  split; [number|]. split; [number|]. split; [blanks|]. split; [discriminate|]. split; [blanks|]. split; [discriminate|]. split; [blanks|]. split; [blanks|].
  split; [right; cbn; tauto|]. split; [|split; [discriminate|left; cbn; tauto]].
  apply stt; [apply to_pdf_text, writable_xdict; assumption|constructor|cbn; tauto|blanks|]. left. right. left. reflexivity.
Qed.
Lemma made_follows : forall w1 texts rows, (w1 <= 1)%nat -> List.length rows = 8%nat -> Forall2 (row_data w1 2 2) texts rows -> (List.length (concat texts) <= 100)%nat ->
  nth_error rows 7 = Some (AtOffset at7 0) -> N.of_nat (List.length (make w1 (concat texts))) < 2000 ->
  follows_standard same (make w1 (concat texts)) PDF15 [rev_of w1 (concat texts) rows].
Proof.
  intros w1 texts rows Hw Hl Hr Hd H7 Hsize. set (data := concat texts) in *. exists at7. split; [|split; [|split]].
  - apply hi_oldest.
    + apply (sa_stream same (make w1 data) true at7 7 0 (xdict w1 data) data data w1 2 2 8 [OInt 0; OInt 8] _ at7); try reflexivity; try discriminate.
      * apply made_self; assumption.
      * do 4 right. left. reflexivity.
      * do 2 right. left. reflexivity.
      * left. left. reflexivity.
      * assert (E := sd_cons w1 2 2 0 texts rows [] [] [] Hr). cbn [app] in E. rewrite !app_nil_r, Hl in E. unfold data. rewrite Hl. apply E; [discriminate|reflexivity|constructor].
      * clear - Hl. do 8 (destruct rows as [|? rows]; [discriminate|]). destruct rows; [|discriminate]. repeat constructor; cbn; intuition discriminate.
      * clear - Hl H7. do 8 (destruct rows as [|? rows]; [discriminate|]). destruct rows; [|discriminate]. cbn [nth_error] in H7.
        cbn [List.length List.seq map combine]. do 7 right. left. assert (e6 = AtOffset at7 0) by congruence. subst e6. reflexivity.
    + intros v [E|[E|[E|[E|[E|[]]]]]]; apply pair_equal_spec in E; destruct E as [E _]; discriminate E.
  - exists [10]. eexists. split; [left; reflexivity|]. unfold make, piece0. rewrite <- !app_assoc. reflexivity.
  - exists (piece0 ++ piece2 ++ piece3 ++ piece5 ++ piece7 w1 data), 10, [10], (to_string_N at7), [10], [].
    split; [cbn; tauto|]. split; [left; reflexivity|]. split; [number|]. split; [left; reflexivity|]. split; [constructor|].
    split; [unfold make, ending; rewrite <- !app_assoc; reflexivity|]. vm_compute. discriminate.
  - change (2 ^ 63) with 9223372036854775808. lia.
Qed.

Definition packed_row (s i : N) : bytes := [2] ++ be_bytes 2 s ++ be_bytes 2 i.
Definition offset_row (o : N) : bytes := [1] ++ be_bytes 2 o ++ be_bytes 2 0.
Definition texts1 : list bytes :=
  [[0; 0; 0; 255; 255]; packed_row 2 0; offset_row at2; offset_row at3; packed_row 2 1; offset_row at5; packed_row 2 2; offset_row at7].
Definition rows1 : list entry_row := [Deleted 65535; Packed 2 0; AtOffset at2 0; AtOffset at3 0; Packed 2 1; AtOffset at5 0; Packed 2 2; AtOffset at7 0].
Ltac field a b c := exists a, b, c; repeat (split; [first [reflexivity|repeat constructor; reflexivity]|]); repeat split; try reflexivity; try discriminate.
Lemma texts1_rows : Forall2 (row_data 1 2 2) texts1 rows1.
Proof.
  unfold texts1, rows1.
  apply Forall2_cons. { field [0] [0; 0] [255; 255]. }
  apply Forall2_cons. { field [2] [0; 2] [0; 0]. }
  apply Forall2_cons. { field [1] (be_bytes 2 at2) [0; 0]. }
  apply Forall2_cons. { field [1] (be_bytes 2 at3) [0; 0]. }
  apply Forall2_cons. { field [2] [0; 2] [0; 1]. }
  apply Forall2_cons. { field [1] (be_bytes 2 at5) [0; 0]. }
  apply Forall2_cons. { field [2] [0; 2] [0; 2]. }
  apply Forall2_cons. { field [1] (be_bytes 2 at7) [0; 0]. }
  apply Forall2_nil.
Qed.
Definition sample : bytes := make 1 (concat texts1).
Definition sample_rev : revision := rev_of 1 (concat texts1) rows1.
Lemma sample_follows : follows_standard same sample PDF15 [sample_rev].
Proof. apply made_follows; [lia|reflexivity|exact texts1_rows|apply Nat.leb_le; reflexivity|reflexivity|vm_compute; reflexivity]. Qed.
Lemma sample_types : types_given [sample_rev].
Proof.
  intros s l w [<-|[]] _ Hin. cbn [v_trailer sample_rev rev_of] in Hin. do 5 (destruct Hin as [E|Hin]; [apply pair_equal_spec in E; destruct E as [E1 E2]; try discriminate E1|]); [|destruct Hin].
  assert (w = OInt (Z.of_nat 1)) by congruence. subst w. discriminate.
Qed.
Lemma sample_known : rows_known [sample_rev].
Proof.
  intros s n t [<-|[]] Hin. cbn [v_rows sample_rev rev_of rows1 List.length List.seq map combine] in Hin.
  repeat (destruct Hin as [E|Hin]; [apply pair_equal_spec in E; destruct E as [_ E]; discriminate E|]). exact Hin.
Qed.
Lemma sample_last : forall n q, In (n, q) (v_rows sample_rev) -> listed_last [sample_rev] n q.
Proof. intros n q Hin. exists [], sample_rev, []. split; [reflexivity|]. split; [exact Hin|]. intros x r []. Qed.
Ltac row := cbn [v_rows sample_rev rev_of rows1 List.length List.seq map combine]; cbn [In]; repeat (first [left; reflexivity|right]).

Definition members0 : list (N * obj) := [(1, OBool true); (4, OArr [ORef 1 0]); (6, OInt 3)].
Lemma text_true : object_text (str "true") (OBool true). Proof. constructor. Qed.
Lemma text_int : forall ds n, number_text ds n -> n < 2 ^ 63 -> object_text ds (OInt (Z.of_N n)).
Proof. intros ds n (H1 & H2 & <-) H. apply (ot_int [] false ds st_none H1 H2). change (2 ^ 63) with 9223372036854775808 in H. cbn [signed]. lia. Qed.
Lemma text_ref_arr : object_text (str "[1 0 R]") (OArr [ORef 1 0]).
Proof. assert (W : writable (OArr [ORef 1 0])) by (apply w_arr; apply Forall_cons; [apply w_ref; lia|apply Forall_nil]). exact (to_pdf_text _ W). Qed.
Lemma sample_holds : holds_objects objstm packed_body members0.
Proof.
  exists 13, [], (str "1 0 4 5 6 13 "), (str "true [1 0 R] 3"), [(1, 0); (4, 5); (6, 13)].
  assert (I3 : items_text (str "3") [OInt 3]).
  { apply (it_cons [] (str "3") (OInt 3) [] []); [constructor|apply (text_int (str "3") 3); [number|reflexivity]|apply it_nil; apply gap_nil|intros _; exact I]. }
  assert (I2 : items_text (str "[1 0 R] 3") [OArr [ORef 1 0]; OInt 3]).
  { apply (it_cons [] (str "[1 0 R]") (OArr [ORef 1 0]) (str " 3") [OInt 3]); [constructor|exact text_ref_arr| |discriminate].
    apply (it_cons [32] (str "3") (OInt 3) [] []); [blanks|apply (text_int (str "3") 3); [number|reflexivity]|apply it_nil; apply gap_nil|intros _; exact I]. }
  assert (I1 : items_text (str "true [1 0 R] 3") [OBool true; OArr [ORef 1 0]; OInt 3]).
  { apply (it_cons [] (str "true") (OBool true) (str " [1 0 R] 3") [OArr [ORef 1 0]; OInt 3]); [constructor|exact text_true| |left; cbn; tauto].
    apply (it_cons [32] (str "[1 0 R]") (OArr [ORef 1 0]) (str " 3") [OInt 3]); [blanks|exact text_ref_arr| |discriminate].
    apply (it_cons [32] (str "3") (OInt 3) [] []); [blanks|apply (text_int (str "3") 3); [number|reflexivity]|apply it_nil; apply gap_nil|intros _; exact I]. }
  split; [left; reflexivity|]. split; [right; right; left; reflexivity|]. split; [reflexivity|]. split; [constructor|]. split.
  { apply (pt_cons (str "1") 1 [32] (str "0") 0 [32] (str "4 5 6 13 ")); try number; try reflexivity; try blanks; try discriminate.
    apply (pt_cons (str "4") 4 [32] (str "5") 5 [32] (str "6 13 ")); try number; try reflexivity; try blanks; try discriminate.
    apply (pt_cons (str "6") 6 [32] (str "13") 13 [32] []); try number; try reflexivity; try blanks; try discriminate. constructor. }
  split; [reflexivity|]. split; [|split; [repeat constructor; cbn; intuition discriminate|discriminate]].
  repeat apply Forall2_cons; try apply Forall2_nil; (split; [reflexivity|]); [exists [OArr [ORef 1 0]; OInt 3]; exact I1|exists [OInt 3]; exact I2|exists []; exact I3].
Qed.
Lemma sample_27 : plain_integer sample [sample_rev] 3 0 27.
Proof.
  exists at3. split; [apply sample_last; row|].
  exists (str "3"), [32], (str "0"), [32], [32], (str "27"), [32], ([10] ++ piece5 ++ piece7 1 (concat texts1) ++ ending).
  split. { exists (piece0 ++ piece2). split; [|reflexivity]. unfold sample, make, piece3. rewrite <- !app_assoc. reflexivity. }
  split; [number|]. split; [number|]. split; [blanks|]. split; [discriminate|]. split; [blanks|]. split; [discriminate|]. split; [blanks|]. split; [blanks|].
  split; [left; cbn; tauto|]. split; [apply (text_int (str "27") 27); [number|reflexivity]|]. split; [discriminate|left; cbn; tauto].
Qed.
Definition one_length (a : N) (z : Z) (n g : N) : option Z := if (n =? a) && (g =? 0) then Some z else None.
Lemma one_length_is : forall a z n g y, one_length a z n g = Some y -> n = a /\ g = 0 /\ y = z.
Proof.
  intros a z n g y E. unfold one_length in E. destruct (N.eqb_spec n a); [|discriminate E]. destruct (N.eqb_spec g 0); [|discriminate E]. cbn [andb] in E. repeat split; congruence.
Qed.
Lemma sample_objstm : object_stream same sample [sample_rev] 2 members0.
Proof.
  exists at2, (one_length 3 27), objstm, packed_body, packed_body. split; [apply sample_last; row|]. split.
  { intros n g z E. apply one_length_is in E. destruct E as (-> & -> & ->). exact sample_27. }
  split; [|split; [reflexivity|exact sample_holds]].
  exists (str "2"), [32], (str "0"), [32], [], (to_pdf (ODict objstm) ++ [] ++ str "stream" ++ [10] ++ packed_body ++ [10] ++ str "endstream"), [10],
    ([10] ++ piece3 ++ piece5 ++ piece7 1 (concat texts1) ++ ending).
  split. { exists piece0. split; [|reflexivity]. unfold sample, make, piece2. rewrite <- !app_assoc. reflexivity. }
  split; [number|]. split; [number|]. split; [blanks|]. split; [discriminate|]. split; [blanks|]. split; [discriminate|]. split; [blanks|]. split; [blanks|].
  split; [right; cbn; tauto|]. split; [|split; [discriminate|left; cbn; tauto]].
  apply stt; [apply to_pdf_text, writable_objstm|constructor|cbn; tauto|blanks|]. right. exists 3, 0. split; [right; left; reflexivity|reflexivity].
Qed.
Lemma sample_packed : forall n o, In (n, o) members0 -> packed_object same sample [sample_rev] n o.
Proof.
  intros n o [E|[E|[E|[]]]]; apply pair_equal_spec in E; destruct E as [<- <-]; exists 2; [exists 0|exists 1|exists 2]; exists members0;
    (split; [apply sample_last; row|]); (split; [exact sample_objstm|reflexivity]).
Qed.
Lemma sample_abc : object_at (stream_text (one_length 6 3)) sample at5 5 0 (OStream content (str "abc")).
Proof.
  exists (str "5"), [32], (str "0"), [32], [], (to_pdf (ODict content) ++ [] ++ str "stream" ++ [10] ++ str "abc" ++ [10] ++ str "endstream"), [10],
    ([10] ++ piece7 1 (concat texts1) ++ ending).
  split. { exists (piece0 ++ piece2 ++ piece3). split; [|reflexivity]. unfold sample, make, piece5. rewrite <- !app_assoc. reflexivity. }
  split; [number|]. split; [number|]. split; [blanks|]. split; [discriminate|]. split; [blanks|]. split; [discriminate|]. split; [blanks|]. split; [blanks|].
  split; [right; cbn; tauto|]. split; [|split; [discriminate|left; cbn; tauto]].
  apply stt; [apply to_pdf_text, writable_content|constructor|cbn; tauto|blanks|]. right. exists 6, 0. split; [left; reflexivity|reflexivity].
Qed.
Lemma sample_content : means same sample [sample_rev] 5 0 (OStream content (str "abc")).
Proof.
  apply (me_offset _ _ _ _ _ at5); [apply sample_last; row|].
  destruct sample_abc as (dn & g1 & dg & g2 & g3 & txt & g4 & rest & H1 & H2 & H3 & H4 & H5 & H6 & H7 & H8 & H9 & H10 & H11 & H12).
  exists dn, g1, dg, g2, g3, txt, g4, rest. repeat (split; [assumption|]). split; [|exact H12]. right. exists (one_length 6 3). split; [|exact H11].
  intros n g z E. apply one_length_is in E. destruct E as (-> & -> & ->). right. split; [reflexivity|]. apply sample_packed. right. right. left. reflexivity.
Qed.
Lemma sample_kept : forall n g, number_kept [sample_rev] n g.
Proof.
  intros n g newer s older r E Hin Hu Hg x q Hx. exfalso. destruct newer as [|a newer]; [destruct Hx|]. apply (f_equal (@List.length _)) in E. cbn [app List.length] in E.
  rewrite app_length in E. cbn [List.length] in E. lia.
Qed.

Lemma sample_chain : exists c, initialize parser_dictionary same 1 [] sample = Ok (PDF15, ByTable c) /\ Forall2 section_like [sample_rev] c.
Proof. apply (opened_any same sample PDF15 [sample_rev] [] 1 sample_follows); [exact sample_types|exact sample_known|apply le_n]. Qed.
Lemma sample_bounds : forall s n o g, In s [sample_rev] -> In (n, AtOffset o g) (v_rows s) -> n < 2 ^ 63 /\ g <= 65535.
Proof. destruct (file_start _ _ _ _ sample_follows) as (o & Hh & _). exact (row_number _ _ _ _ Hh). Qed.
Lemma sample_listed : members_listed same sample [sample_rev].
Proof.
  intros s members n o Hs Hin. destruct sample_chain as (c & _ & L).
  assert (P : forall a x, In (a, x) members0 -> chain_entry a 0 c <> None).
  { intros a x Hx. assert (exists r, In (a, r) (v_rows sample_rev) /\ row_generation r = 0) as (r & Hr & Hg).
    { destruct Hx as [E|[E|[E|[]]]]; apply pair_equal_spec in E; destruct E as [<- _]; [exists (Packed 2 0)|exists (Packed 2 1)|exists (Packed 2 2)]; (split; [row|reflexivity]). }
    destruct (chain_lists _ _ a sample_rev r L (or_introl eq_refl) Hr) as (e & Ee). rewrite Hg in Ee. congruence. }
  assert (G6 : forall k, get_object same (S (S (S k))) sample c 6 0 = Ok (OInt 3)).
  { intros k. apply (get_member same sample [sample_rev] c L sample_bounds k 6 (OInt 3) 2 2 members0); [apply sample_last; row|exact sample_objstm|exact P|reflexivity]. }
  assert (G5 := get_body same sample [sample_rev] c L sample_bounds 3 5 at5 0 content (str "abc") (one_length 6 3) ltac:(apply sample_last; row) sample_abc).
  assert (G7 := get_body same sample [sample_rev] c L sample_bounds 3 7 at7 0 _ _ (fun _ _ => None) ltac:(apply sample_last; row)
    (made_self 1 (concat texts1) ltac:(lia) ltac:(apply Nat.leb_le; reflexivity))).
  assert (G3 := get_plain same sample [sample_rev] c L sample_bounds 3 3 0 27 sample_27).
  destruct (get_stream same sample [sample_rev] c L sample_bounds 2 2 members0 sample_objstm) as (m2 & d2 & b2 & G2 & D2 & S2 & K2 & H2).
  destruct (get_stream same sample [sample_rev] c L sample_bounds 2 s members Hs) as (m & d & b & G & D & Sm & Km & H).
  assert (HF : exists first, In (str "First", OInt first) m) by (destruct H as (first & ? & ? & ? & ? & HF & _); eauto).
  destruct Hs as (off & len & m' & data & body & Hl & _). destruct Hl as (newer & x & older & E & Hrow & _).
  assert (x = sample_rev). { destruct newer as [|y newer]; [cbn [app] in E; congruence|]. destruct newer; discriminate E. } subst x. clear E newer older.
  cbn [v_rows sample_rev rev_of rows1 List.length List.seq map combine] in Hrow. destruct HF as [first HF].
  assert (Es : s = 2 \/ s = 3 \/ s = 5 \/ s = 7).
  { repeat (destruct Hrow as [E|Hrow]; [apply pair_equal_spec in E; destruct E as [<- E]; first [discriminate E|cbn; tauto]|]). destruct Hrow. }
  destruct Es as [ -> | [ -> | [ -> | -> ] ] ].
  - assert (E : OStream m d = OStream m2 d2) by (apply Ok_inj; congruence). assert (m = m2) by congruence. assert (d = d2) by congruence. subst m2 d2. assert (b = b2) by (apply Ok_inj; congruence). subst b2.
    assert (R := members_read (fun _ _ => Undef) m b members Sm Km H). rewrite (members_read (fun _ _ => Undef) m b members0 Sm Km H2) in R. apply Ok_inj in R. subst members.
    exists sample_rev. destruct Hin as [E'|[E'|[E'|[]]]]; apply pair_equal_spec in E'; destruct E' as [<- _]; [exists (Packed 2 0)|exists (Packed 2 1)|exists (Packed 2 2)];
      (split; [left; reflexivity|split; [row|reflexivity]]).
  - exfalso. rewrite G3 in G. apply Ok_inj in G. discriminate G.
  - exfalso. rewrite G5 in G; [|intros a z' z Ez; apply one_length_is in Ez; destruct Ez as (-> & -> & ->); apply G6]. apply Ok_inj in G. assert (m = content) by congruence. subst m.
    destruct HF as [E|[]]. apply pair_equal_spec in E. destruct E as [E _]. discriminate E.
  - exfalso. rewrite G7 in G; [|discriminate]. apply Ok_inj in G. assert (m = xdict 1 (concat texts1)) by congruence. subst m.
    destruct HF as [E|[E|[E|[E|[E|[]]]]]]; apply pair_equal_spec in E; destruct E as [E _]; discriminate E.
Qed.

Example C94_case : exists c, initialize parser_dictionary same 1 [] sample = Ok (PDF15, ByTable c) /\ get_object same 4 sample c 1 0 = Ok (OBool true) /\
  get_object same 4 sample c 4 0 = Ok (OArr [ORef 1 0]) /\ get_object same 4 sample c 5 0 = Ok (OStream content (str "abc")) /\ get_object same 4 sample c 9 0 = Ok ONull.
Proof.
  destruct sample_chain as (c & E & _). exists c. split; [exact E|].
  assert (T := C94_objects_partial same sample true PDF15 [sample_rev] [] 1 c sample_follows sample_types sample_known sample_listed (le_n 1) E).
  split; [|split; [|split]]; (apply T; [|apply sample_kept|apply le_n]).
  - apply me_packed; [reflexivity|]. apply sample_packed. left. reflexivity.
  - apply me_packed; [reflexivity|]. apply sample_packed. right. left. reflexivity.
  - exact sample_content.
  - apply me_unknown. intros x r [<-|[]] Hin. cbn [v_rows sample_rev rev_of rows1 List.length List.seq map combine] in Hin.
    repeat (destruct Hin as [E'|Hin]; [apply pair_equal_spec in E'; destruct E' as [E' _]; discriminate E'|]). exact Hin.
Qed.

(** the same objects with rows of two fields: object 3 is the number 27 *)
Definition untyped_row (o : N) : bytes := be_bytes 2 o ++ be_bytes 2 0.
Definition texts2 : list bytes := map untyped_row [0; 0; at2; at3; 0; at5; 0; at7].
Definition rows2 : list entry_row := map (fun o => AtOffset o 0) [0; 0; at2; at3; 0; at5; 0; at7].
Lemma texts2_rows : Forall2 (row_data 0 2 2) texts2 rows2.
Proof.
  unfold texts2, rows2. cbn [map]. repeat (apply Forall2_cons; [match goal with |- row_data _ _ _ (untyped_row ?o) _ => field (@nil N) (be_bytes 2 o) [0; 0] end|]). apply Forall2_nil.
Qed.
Definition untyped : bytes := make 0 (concat texts2).
Definition untyped_rev : revision := rev_of 0 (concat texts2) rows2.
Lemma untyped_follows : follows_standard same untyped PDF15 [untyped_rev].
Proof. apply made_follows; [lia|reflexivity|exact texts2_rows|apply Nat.leb_le; reflexivity|reflexivity|vm_compute; reflexivity]. Qed.
Example C94_untyped_case : means same untyped [untyped_rev] 3 0 (OInt 27) /\
  exists c, initialize parser_dictionary same 1 [] untyped = Ok (PDF15, ByTable c) /\ get_object same 4 untyped c 3 0 = Ok ONull.
Proof.
  split.
  - apply (me_offset _ _ _ _ _ at3).
    { exists [], untyped_rev, []. split; [reflexivity|]. split; [cbn [v_rows untyped_rev rev_of rows2 List.length List.seq map combine]; cbn [In]; repeat (first [left; reflexivity|right])|intros x r []]. }
    exists (str "3"), [32], (str "0"), [32], [32], (str "27"), [32], ([10] ++ piece5 ++ piece7 0 (concat texts2) ++ ending).
    split. { exists (piece0 ++ piece2). split; [|reflexivity]. unfold untyped, make, piece3. rewrite <- !app_assoc. reflexivity. }
    split; [number|]. split; [number|]. split; [blanks|]. split; [discriminate|]. split; [blanks|]. split; [discriminate|]. split; [blanks|]. split; [blanks|].
    split; [left; cbn; tauto|]. split; [left; apply (text_int (str "27") 27); [number|reflexivity]|]. split; [discriminate|left; cbn; tauto].
  - destruct (C94_default_type_refuted same untyped PDF15 untyped_rev [] 1 7 0 [OInt 2; OInt 2] untyped_follows eq_refl ltac:(do 4 right; left; reflexivity) (le_n 1)) as (c & E & H).
    exists c. split; [exact E|]. apply H; [discriminate|lia].
Qed.

(** the same file with a row of type 3 *)
Definition texts3 : list bytes := [3; 0; 0; 0; 0] :: tl texts1.
Definition rows3 : list entry_row := Reserved 3 :: tl rows1.
Lemma texts3_rows : Forall2 (row_data 1 2 2) texts3 rows3.
Proof. apply Forall2_cons. { field [3] [0; 0] [0; 0]. } assert (H := texts1_rows). inversion H; assumption. Qed.
Example C94_reserved_case : forall w c, initialize parser_dictionary same 1 [] (make 1 (concat texts3)) <> Ok (w, ByTable c).
Proof.
  apply (C94_reserved_refuted same _ PDF15 [rev_of 1 (concat texts3) rows3] [] 1 (rev_of 1 (concat texts3) rows3) 0 3).
  - apply made_follows; [lia|reflexivity|exact texts3_rows|apply Nat.leb_le; reflexivity|reflexivity|vm_compute; reflexivity].
  - intros s l w [<-|[]] _ Hin. cbn [v_trailer rev_of] in Hin. do 5 (destruct Hin as [E|Hin]; [apply pair_equal_spec in E; destruct E as [E1 E2]; try discriminate E1|]); [|destruct Hin].
    assert (w = OInt (Z.of_nat 1)) by congruence. subst w. discriminate.
  - apply le_n.
  - left. reflexivity.
  - left. reflexivity.
Qed.

Print Assumptions C94_opened_partial.
Print Assumptions C94_objects_partial.
Print Assumptions C94_default_type_refuted.
Print Assumptions C94_reserved_refuted.

(** Facts about signing. *)
From Coq Require Import List NArith ZArith Bool Lia String.
From Coq Require Import List.
From Verif.Model Require Import Base Char Numbers SMap Object Token Parser Arith FileWrite Sign.
From Verif.Spec Require Import Strings Grammar Sign.
From Verif.Proof Require Import Tac Numbers SMap Strings Token Parser Writer StreamObj Xref FileWrite.
Import ListNotations.
Local Open Scope N_scope.

(** ** the text of the dictionary *)

(** an entry with what is written for its value and what is read back from it *)
Definition member_text (e : bytes * sval) : bytes := (47 :: name_to_string (fst e)) ++ [32] ++ sval_text (snd e).
Definition members_text (m : list (bytes * sval)) : bytes := join_sp (map member_text m).

Lemma join_sp_cons : forall x l, l <> [] -> join_sp (x :: l) = x ++ [32] ++ join_sp l.
Proof. intros x [|y l] H; [congruence|reflexivity]. Qed.

Lemma write_members_rest : forall m pos, fst (write_members false pos m) = flat_map (fun e => [32] ++ member_text e) m.
Proof.
  induction m as [|[k v] m IH]; intros pos; [reflexivity|]. cbn [write_members flat_map].
  match goal with |- context [write_members false ?p m] => specialize (IH p); destruct (write_members false p m) as [txt l] end.
  cbn [fst] in *. subst txt. unfold member_text. cbn [fst snd]. rewrite <- !app_assoc. reflexivity.
Qed.
Lemma write_members_app : forall a b first pos, 
  snd (write_members first pos (a ++ b)) = snd (write_members first pos a) ++
    snd (write_members (match a with [] => first | _ => false end) (pos + N.of_nat (List.length (fst (write_members first pos a)))) b).
Proof.
  induction a as [|[k v] a IH]; intros b first pos.
  - cbn [app write_members fst snd List.length]. rewrite N.add_0_r. reflexivity.
  - cbn [app write_members].
    match goal with |- context [write_members false ?q (a ++ b)] => remember q as p eqn:Ep end.
    specialize (IH b false p). destruct (write_members false p (a ++ b)) as [t1 l1]. destruct (write_members false p a) as [t2 l2] eqn:E2.
    cbn [fst snd] in *. rewrite IH. cbn [app]. f_equal. f_equal.
    replace (match a with [] => false | _ => false end) with false by (destruct a; reflexivity). f_equal. f_equal. rewrite Ep.
    cbn [List.length]. rewrite !app_length. cbn [List.length]. rewrite ?app_length. cbn [List.length]. lia.
Qed.
Lemma write_members_first : forall m pos, fst (write_members true pos m) = members_text m.
Proof.
  intros [|[k v] m] pos; [reflexivity|]. cbn [write_members].
  match goal with |- context [write_members false ?p m] => pose proof (write_members_rest m p) as IH; destruct (write_members false p m) as [txt l] end.
  cbn [fst app] in *. subst txt. unfold members_text. cbn [map].
  assert (G : forall x l, join_sp (x :: map member_text l) = x ++ flat_map (fun e => [32] ++ member_text e) l).
  { intros x l0. revert x. induction l0 as [|e l0 IH]; intros x; [cbn; symmetry; apply app_nil_r|].
    cbn [map]. rewrite join_sp_cons by discriminate. rewrite IH. cbn [flat_map]. rewrite <- !app_assoc. reflexivity. }
  rewrite G. unfold member_text at 2. cbn [fst snd]. rewrite <- !app_assoc. reflexivity.
Qed.

Lemma flat_members : forall x l, join_sp (x :: map member_text l) = x ++ flat_map (fun e => [32] ++ member_text e) l.
Proof.
  intros x l0. revert x. induction l0 as [|e l0 IH]; intros x; [cbn; symmetry; apply app_nil_r|].
  cbn [map]. rewrite join_sp_cons by discriminate. rewrite IH. cbn [flat_map]. rewrite <- !app_assoc. reflexivity.
Qed.

(** ** writing and reading streams *)
Lemma write_at_middle : forall p x q y, List.length x = List.length y ->
  write_at (Z.of_nat (List.length p)) y (p ++ x ++ q) = Ok (p ++ y ++ q).
Proof.
  intros p x q y H. unfold write_at. rewrite app_length.
  replace ((Z.of_nat (List.length p) <? 0)%Z || (Z.of_nat (List.length p + List.length (x ++ q)) <? Z.of_nat (List.length p))%Z) with false by lia.
  rewrite Nat2Z.id. f_equal. rewrite firstn_app, firstn_all, PeanoNat.Nat.sub_diag. cbn [firstn]. rewrite app_nil_r. f_equal. f_equal.
  rewrite <- H, <- app_length. rewrite app_assoc. apply skipn_exact.
Qed.
Lemma firstn_split : forall k n (l : bytes), (k <= n)%nat -> firstn n l = firstn k l ++ firstn (n - k) (skipn k l).
Proof.
  induction k as [|k IH]; intros n l H; [cbn; rewrite PeanoNat.Nat.sub_0_r; reflexivity|].
  destruct n as [|n]; [lia|]. destruct l as [|x l]; [cbn; destruct (n - k)%nat; reflexivity|].
  cbn [firstn skipn app]. f_equal. rewrite (IH n) by lia. reflexivity.
Qed.
Lemma sign_update_ok : forall fuel input len, (N.to_nat len <= List.length input)%nat -> (N.to_nat len <= fuel)%nat ->
  sign_update fuel input len = Ok (firstn (N.to_nat len) input).
Proof.
  induction fuel as [|f IH]; intros input len H1 H2.
  - cbn [sign_update]. replace (len =? 0) with true by lia. replace (N.to_nat len) with 0%nat by lia. reflexivity.
  - cbn [sign_update]. destruct (len =? 0) eqn:E; [replace (N.to_nat len) with 0%nat by lia; reflexivity|].
    assert (Hb : List.length (firstn (N.to_nat (N.min len buffer_size)) input) = N.to_nat (N.min len buffer_size)).
    { rewrite firstn_length. lia. }
    rewrite Hb. assert (0 < N.min len buffer_size) by (unfold buffer_size; lia).
    rewrite IH by (rewrite ?skipn_length; lia). cbn [rbind]. f_equal.
    replace (N.to_nat (len - N.of_nat (N.to_nat (N.min len buffer_size)))) with (N.to_nat len - N.to_nat (N.min len buffer_size))%nat by lia.
    symmetry. apply firstn_split. lia.
Qed.

(** ** the padded signature is the text of a longer string *)
Lemma fmt_zero : fmt_02X 0 = [48; 48].
Proof. reflexivity. Qed.
Lemma fmt_length : forall b, b < 256 -> List.length (fmt_02X b) = 2%nat.
Proof. intros b H. assert (G := sweep_byte (fun b => Nat.eqb (List.length (fmt_02X b)) 2)). apply PeanoNat.Nat.eqb_eq. apply G; [vm_compute; reflexivity|exact H]. Qed.
Lemma hex_length : forall v, all_bytes v -> List.length (hex_to_pdf v) = (2 * List.length v + 2)%nat.
Proof.
  intros v H. unfold hex_to_pdf. rewrite !app_length. cbn [List.length]. enough (List.length (flat_map fmt_02X v) = 2 * List.length v)%nat by lia.
  induction v as [|b v IH]; [reflexivity|]. inversion H; subst. cbn [flat_map List.length]. rewrite app_length, fmt_length, IH by assumption. lia.
Qed.
Lemma repeat_pairs : forall z, flat_map fmt_02X (repeat 0 z) = repeat 48 (2 * z).
Proof.
  induction z as [|z IH]; [reflexivity|]. cbn [repeat flat_map]. rewrite IH, fmt_zero. replace (2 * S z)%nat with (S (S (2 * z)))%nat by lia. reflexivity.
Qed.
Lemma padded_text : forall v room, all_bytes v -> (2 * N.of_nat (List.length v) + 2 <= 2 * room) ->
  padded_signature v (2 * room) = Ok (hex_to_pdf (v ++ repeat 0 (N.to_nat room - 1 - List.length v))).
Proof.
  intros v room Hv H. unfold padded_signature. assert (L := hex_length v Hv). rewrite L.
  replace (2 * room <? N.of_nat (2 * List.length v + 2)) with false by lia. f_equal.
  unfold hex_to_pdf in *. rewrite flat_map_app, repeat_pairs. rewrite !app_length in L. cbn [List.length] in L.
  assert (E : ([60] ++ flat_map fmt_02X v ++ [62]) = ([60] ++ flat_map fmt_02X v) ++ [62]) by (rewrite app_assoc; reflexivity).
  rewrite E. replace (2 * List.length v + 2 - 1)%nat with (List.length ([60] ++ flat_map fmt_02X v)) by (rewrite app_length; cbn [List.length]; lia).
  rewrite firstn_app, firstn_all, PeanoNat.Nat.sub_diag. cbn [firstn]. rewrite app_nil_r. rewrite skipn_exact.
  replace (N.to_nat (2 * room) - (2 * List.length v + 2))%nat with (2 * (N.to_nat room - 1 - List.length v))%nat by lia.
  rewrite <- !app_assoc. reflexivity.
Qed.

(** ** the shape of the dictionary *)
Definition byte_range_key : bytes := str "ByteRange".
Definition contents_key : bytes := str "Contents".
Definition optional (k : bytes) (f : bytes -> obj) (o : option bytes) : list (bytes * obj) := match o with Some v => [(k, f v)] | None => [] end.
Definition middle (s : settings) : list (bytes * obj) := optional (str "Cert") OHex (s_certificate s).
Definition rest_of (s : settings) : list (bytes * obj) :=
  [(str "Filter", OName (str "Adobe.PPKLite"))] ++ optional (str "Location") OLit (s_location s) ++ optional (str "M") OLit (s_time s) ++
  optional (str "Name") OLit (s_name s) ++ optional (str "Reason") OLit (s_reason s) ++
  [(str "SubFilter", OName (str "adbe.pkcs7.detached")); (str "Type", OName (str "Sig"))].
Definition plain (l : list (bytes * obj)) : list (bytes * sval) := map (fun e => (fst e, Plain (snd e))) l.

Lemma dictionary_shape : forall s, signature_dictionary s =
  (byte_range_key, Override (repeat 32 byte_range_room)) :: plain (middle s) ++
  (contents_key, Override (repeat 32 (N.to_nat contents_room))) :: plain (rest_of s).
Proof.
  intros s. unfold signature_dictionary. generalize (repeat 32 byte_range_room) (repeat 32 (N.to_nat contents_room)). intros x y.
  destruct s as [[c|] [n|] [l|] [r|] [t|]]; reflexivity.
Qed.

Lemma keys_written : forall m f p, map fst (snd (write_members f p m)) = map fst m.
Proof.
  induction m as [|[k v] m IH]; intros f p; [reflexivity|]. cbn [write_members].
  match goal with |- context [write_members false ?q m] => specialize (IH false q); destruct (write_members false q m) as [t l] end.
  cbn [snd map fst] in *. rewrite IH. reflexivity.
Qed.
Lemma find_skip : forall V (a r : list (bytes * V)) k, (forall x, In x (map fst a) -> buffer_ltb x k = true) -> sm_find k (a ++ r) = sm_find k r.
Proof.
  induction a as [|[x v] a IH]; intros r k H; [reflexivity|]. cbn [app sm_find].
  assert (E : buffer_ltb x k = true) by (apply H; left; reflexivity). rewrite E, (ltb_asym _ _ E). apply IH. intros y Hy. apply H. right. exact Hy.
Qed.

Definition space_members (m : list (bytes * obj)) : bytes := flat_map (fun e => [32] ++ member_text e) (plain m).
Definition heading (num gen : N) : bytes := to_string_N num ++ [32] ++ to_string_N gen ++ [32] ++ str "obj" ++ [10] ++ [60; 60].
Definition closing : bytes := [62; 62] ++ [10] ++ str "endobj" ++ [10].

Definition before_range (num gen : N) : bytes := heading num gen ++ (47 :: byte_range_key) ++ [32].
Definition between (s : settings) : bytes := space_members (middle s) ++ [32] ++ (47 :: contents_key) ++ [32].
Lemma written_signature : forall s num gen pos,
  exists l, write_signature num gen pos (signature_dictionary s) =
    (before_range num gen ++ repeat 32 byte_range_room ++ between s ++ repeat 32 (N.to_nat contents_room) ++ space_members (rest_of s) ++ closing, l) /\
    offset_of (str "ByteRange") l = Z.of_nat (N.to_nat pos + List.length (before_range num gen)) /\
    offset_of (str "Contents") l = Z.of_nat (N.to_nat pos + List.length (before_range num gen ++ repeat 32 byte_range_room ++ between s)).
Proof.
  intros s num gen pos. rewrite dictionary_shape. generalize (repeat 32 byte_range_room) (repeat 32 (N.to_nat contents_room)). intros x y.
  unfold write_signature, before_range, between. fold (heading num gen).
  set (m := (byte_range_key, Override x) :: plain (middle s) ++ (contents_key, Override y) :: plain (rest_of s)).
  remember (pos + N.of_nat (List.length (heading num gen))) as p eqn:Ep.
  assert (T := write_members_first m p). assert (O := write_members_app ((byte_range_key, Override x) :: plain (middle s)) ((contents_key, Override y) :: plain (rest_of s)) true p).
  rewrite <- app_comm_cons in O. fold m in O. destruct (write_members true p m) as [txt l]. cbn [fst snd] in T, O.
  exists l. split; [|split].
  - f_equal. subst txt. unfold members_text, m. cbn [map]. rewrite flat_members, flat_map_app. cbn [flat_map]. unfold member_text at 1 3.
    cbn [fst snd sval_text]. unfold space_members. change (name_to_string byte_range_key) with byte_range_key.
    change (name_to_string contents_key) with contents_key. unfold closing. rewrite <- !app_assoc. reflexivity.
  - subst l. cbn [write_members]. match goal with |- context [write_members false ?q (plain (middle s))] => destruct (write_members false q (plain (middle s))) as [t1 l1] end.
    cbn [snd app]. unfold offset_of. cbn [sm_find]. change (str "ByteRange") with byte_range_key. rewrite ltb_irrefl.
    subst p. rewrite !app_length. cbn [List.length app]. rewrite ?app_length. cbn [List.length]. change (name_to_string byte_range_key) with byte_range_key. lia.
  - subst l. unfold offset_of. rewrite find_skip.
    2:{ rewrite keys_written. cbn [map fst]. intros k [<-|Hk]; [reflexivity|]. unfold plain, middle in Hk. destruct (s_certificate s); cbn in Hk; [|tauto].
        destruct Hk as [<-|[]]. reflexivity. }
    assert (L : List.length (fst (write_members true p ((byte_range_key, Override x) :: plain (middle s)))) =
      List.length ((47 :: byte_range_key) ++ [32] ++ x ++ space_members (middle s))).
    { rewrite write_members_first. unfold members_text. cbn [map]. rewrite flat_members. unfold member_text at 1. cbn [fst snd sval_text].
      unfold space_members. change (name_to_string byte_range_key) with byte_range_key. rewrite <- !app_assoc. reflexivity. }
    rewrite L. cbn [write_members]. match goal with |- context [write_members false ?q (plain (rest_of s))] => destruct (write_members false q (plain (rest_of s))) as [t1 l1] end.
    cbn [snd sm_find]. change (str "Contents") with contents_key. rewrite ltb_irrefl. subst p. clear. change (name_to_string contents_key) with contents_key.
    rewrite !app_length. cbn [List.length app]. rewrite ?app_length. cbn [List.length]. lia.
Qed.

(** ** the text of the signed dictionary *)
Lemma entries_member : forall g k t o more es, gap g -> all_bytes k -> object_text t o -> entries_text more es -> token_ends more ->
  entries_text (g ++ (47 :: name_to_string k) ++ [32] ++ t ++ more) ((k, o) :: es).
Proof.
  intros g k t o more es Hg Hk Ht Hm He.
  constructor; [exact Hg|apply name_to_string_text; exact Hk|exact gap_sp|exact Ht|exact Hm|cbn; tauto|intros _; exact He].
Qed.
Definition member_ok (e : bytes * obj) : Prop := all_bytes (fst e) /\ writable (snd e).
Lemma entries_members : forall m tail es, Forall member_ok m -> entries_text tail es -> token_ends tail ->
  entries_text (space_members m ++ tail) (m ++ es) /\ token_ends (space_members m ++ tail).
Proof.
  induction m as [|[k o] m IH]; intros tail es Hm Ht He; [split; assumption|]. inversion Hm as [|? ? [Hk Ho] Hm']; subst. cbn [fst snd] in *.
  destruct (IH tail es Hm' Ht He) as [G1 G2]. split; [|cbn; tauto]. unfold space_members in *. cbn [plain map flat_map] in *. fold (plain m) in *.
  unfold member_text at 1. cbn [fst snd sval_text]. rewrite <- !app_assoc. cbn [app]. fold (space_members m) in *.
  apply (entries_member [32] k (to_pdf o)); [exact gap_sp|exact Hk|apply to_pdf_text; exact Ho|exact G1|exact G2].
Qed.
Lemma spaces_gap : forall n, gap (repeat 32 n).
Proof. induction n as [|n IH]; cbn [repeat]; [constructor|apply gap_white; [cbn; tauto|exact IH]]. Qed.

Definition settings_ok (s : settings) : Prop := made_of_bytes [s_certificate s; s_name s; s_location s; s_reason s; s_time s].
Lemma str_all_bytes : forall w, all_bytes (str w).
Proof. apply str_bytes. Qed.
Lemma optional_ok : forall k f o, all_bytes k -> (forall v, o = Some v -> writable (f v)) -> Forall member_ok (optional k f o).
Proof. intros k f o Hk Hf. unfold optional. destruct o; constructor; [split; [exact Hk|apply Hf; reflexivity]|constructor]. Qed.
Lemma middle_ok : forall s, settings_ok s -> Forall member_ok (middle s).
Proof. intros s H. apply optional_ok; [apply str_all_bytes|]. intros v E. apply w_hex, H. rewrite <- E. cbn [In]. auto. Qed.
Lemma rest_ok : forall s, settings_ok s -> Forall member_ok (rest_of s).
Proof.
  intros s H. unfold rest_of. repeat (apply Forall_app; split); try (apply optional_ok; [apply str_all_bytes|intros v E; apply w_lit, H; rewrite <- E; cbn [In]; auto 8]).
  - constructor; [split; [apply str_all_bytes|apply w_name, str_all_bytes]|constructor].
  - constructor; [split; [apply str_all_bytes|apply w_name, str_all_bytes]|].
    constructor; [split; [apply str_all_bytes|apply w_name, str_all_bytes]|constructor].
Qed.

(** the dictionary as it is read back *)
Definition signed_entries (s : settings) (ranges : list Z) (v : bytes) : list (bytes * obj) :=
  (byte_range_key, OArr (map OInt ranges)) :: middle s ++ (contents_key, OHex v) :: rest_of s.

Lemma signed_sorted : forall s r v, sm_sorted (signed_entries s r v).
Proof.
  intros [[c|] [n|] [l|] [r|] [t|]] ranges v; unfold signed_entries, middle, rest_of, optional, sm_sorted; cbn [s_certificate s_name s_location s_reason s_time app];
    repeat (constructor; [|repeat (constructor; [reflexivity|]); constructor]); constructor.
Qed.
Lemma signed_content : forall s r v, settings_ok s -> Forall (fun z => (- 2 ^ 63 <= z < 2 ^ 63)%Z) r -> all_bytes v ->
  dict_content (signed_entries s r v) (signed_entries s r v) /\ Forall member_ok (signed_entries s r v).
Proof.
  intros s r v Hs Hr Hv. assert (F : Forall (fun e => member_ok e /\ snd e <> ONull) (signed_entries s r v)).
  { unfold signed_entries. constructor; [split; [split; [apply str_all_bytes|]|discriminate]|].
    - cbn [snd]. apply w_arr. apply Forall_map. eapply Forall_impl; [|exact Hr]. intros z Hz. apply w_int. exact Hz.
    - apply Forall_app. split.
      + assert (M := middle_ok s Hs). apply Forall_forall. intros e He. split; [rewrite Forall_forall in M; apply M; exact He|].
        unfold middle, optional in He. destruct (s_certificate s); cbn [In] in He; intuition (subst; discriminate).
      + constructor; [split; [split; [apply str_all_bytes|cbn [snd]; apply w_hex; exact Hv]|discriminate]|].
        assert (M := rest_ok s Hs). apply Forall_forall. intros e He. split; [rewrite Forall_forall in M; apply M; exact He|].
        clear - He. unfold rest_of, optional in He. rewrite !in_app_iff in He. cbn [In] in He.
        destruct (s_location s), (s_time s), (s_name s), (s_reason s); cbn [In] in He; intuition (subst; discriminate). }
  assert (F1 : Forall member_ok (signed_entries s r v)) by (eapply Forall_impl; [|exact F]; cbn; tauto).
  split; [|exact F1]. apply sorted_content.
  - apply keys_sorted_back; [apply signed_sorted|]. unfold sm_keys_ok. eapply Forall_impl; [|exact F1]. intros e [H _]. exact H.
  - eapply Forall_impl; [|exact F]. cbn. tauto.
Qed.

Lemma signed_text : forall s r v pad, settings_ok s -> Forall (fun z => (- 2 ^ 63 <= z < 2 ^ 63)%Z) r -> all_bytes v ->
  object_text ([60; 60] ++ ((47 :: byte_range_key) ++ [32] ++ to_pdf (OArr (map OInt r)) ++ repeat 32 pad ++ between s ++ hex_to_pdf v ++ space_members (rest_of s)) ++ [62; 62])
    (ODict (signed_entries s r v)).
Proof.
  intros s r v pad Hs Hr Hv. destruct (signed_content s r v Hs Hr Hv) as [Hc _]. apply (ot_dict _ (signed_entries s r v)); [|exact Hc].
  destruct (entries_members (rest_of s) [] [] (rest_ok s Hs) (en_nil [] gap_nil) I) as [E1 E2]. rewrite !app_nil_r in E1, E2. unfold bytes in E1. rewrite app_nil_r in E1.
  assert (E3 : entries_text ([32] ++ (47 :: contents_key) ++ [32] ++ hex_to_pdf v ++ space_members (rest_of s)) ((contents_key, OHex v) :: rest_of s)).
  { change contents_key with (name_to_string contents_key) at 1.
    apply entries_member; [exact gap_sp|apply str_all_bytes|apply (to_pdf_text (OHex v)), w_hex, Hv|exact E1|exact E2]. }
  destruct (entries_members (middle s) _ _ (middle_ok s Hs) E3 ltac:(cbn; tauto)) as [E4 E5].
  unfold signed_entries.
  match goal with |- entries_text ((47 :: byte_range_key) ++ [32] ++ ?t) _ =>
    change ((47 :: byte_range_key) ++ [32] ++ t) with ([] ++ (47 :: name_to_string byte_range_key) ++ [32] ++ t) end.
  apply entries_member; [constructor|apply str_all_bytes| | |].
  - apply to_pdf_text. apply w_arr. apply Forall_map. eapply Forall_impl; [|exact Hr]. intros z Hz. apply w_int. exact Hz.
  - apply entries_gap; [apply spaces_gap|]. unfold between. rewrite <- !app_assoc. exact E4.
  - destruct pad as [|pad]; [|cbn; tauto]. cbn [repeat app]. unfold between. rewrite <- !app_assoc. exact E5.
Qed.

(** an object whose text is known is read back from its place *)
Lemma read_text_object : forall rl num gen txt o rest, num < 2 ^ 63 -> gen <= 65535 -> object_text txt o ->
  read_indirect_object parser_dictionary rl
    ((to_string_N num ++ [32] ++ to_string_N gen ++ [32] ++ str "obj" ++ [10]) ++ txt ++ ([10] ++ str "endobj" ++ [10]) ++ rest) = Ok (num, gen, o, [10] ++ rest).
Proof.
  intros rl num gen txt o rest Hn Hg Ho. unfold read_indirect_object. rewrite <- !app_assoc.
  assert (En := expect_number parser_dictionary [] 0 num 32). assert (Eg := expect_number parser_dictionary [32] 0 gen 32).
  change (pad_zero 0 (to_string_N num)) with (to_string_N num) in En. change (pad_zero 0 (to_string_N gen)) with (to_string_N gen) in Eg.
  cbn [app] in En. change ([32] ++ to_string_N gen ++ [32] ++ str "obj" ++ [10] ++ txt ++ [10] ++ str "endobj" ++ [10] ++ rest) with
    (32 :: to_string_N gen ++ 32 :: str "obj" ++ [10] ++ txt ++ [10] ++ str "endobj" ++ [10] ++ rest).
  rewrite En by (first [exact white32|exact gap_nil]). cbn [rbind].
  change (32 :: to_string_N gen ++ 32 :: str "obj" ++ [10] ++ txt ++ [10] ++ str "endobj" ++ [10] ++ rest) with
    ([32] ++ to_string_N gen ++ 32 :: str "obj" ++ [10] ++ txt ++ [10] ++ str "endobj" ++ [10] ++ rest).
  rewrite Eg by (first [exact white32|exact gap32]). cbn [rbind].
  unfold expect_skip at 1.
  change (32 :: str "obj" ++ [10] ++ txt ++ [10] ++ str "endobj" ++ [10] ++ rest) with
    ([32] ++ str "obj" ++ [10] ++ txt ++ [10] ++ str "endobj" ++ [10] ++ rest).
  rewrite skip_gap by exact gap32. rewrite tok_keyword by (cbn; tauto || (left; exact white10)). cbn [rbind fst snd].
  change (ttype_eqb (parser_dictionary (str "obj")) TyObjBegin) with true. cbv iota. cbn [rbind].
  assert (Ep : parse_direct parser_dictionary rl ([10] ++ txt ++ [10] ++ str "endobj" ++ [10] ++ rest) =
    Ok (o, [10] ++ str "endobj" ++ [10] ++ rest)).
  { rewrite app_assoc. apply parse_gap_text; [exact gap10|exact Ho|].
    apply (oe_word [10] (str "endobj") ([10] ++ rest)); [exact gap10|discriminate|cbn; tauto|left; exact white10]. }
  rewrite Ep. cbn [rbind]. unfold expect_skip. rewrite skip_gap by exact gap10. rewrite tok_keyword by (cbn; tauto || (left; exact white10)).
  cbn [rbind fst snd]. change (ttype_eqb (parser_dictionary (str "endobj")) TyObjEnd) with true. cbv iota. cbn [rbind].
  assert (S1 := stoll_padded 0 num Hn). change (pad_zero 0 (to_string_N num)) with (to_string_N num) in S1. rewrite S1. cbn [rbind].
  assert (S2 := stoll_padded 0 gen ltac:(change (2 ^ 63) with 9223372036854775808; lia)). change (pad_zero 0 (to_string_N gen)) with (to_string_N gen) in S2.
  rewrite S2. cbn [rbind]. unfold to_u64, to_u16. replace (Z.of_N num <? 0)%Z with false by lia. cbn [rbind].
  replace (Z.of_N gen <? 0)%Z with false by lia. replace (Z.of_N gen <=? 65535)%Z with true by lia. cbn [rbind]. rewrite !N2Z.id. reflexivity.
Qed.

(** ** the whole procedure *)
Lemma offset_sum : forall a b, (0 <= a)%Z -> (0 <= b)%Z -> (a + b < 2 ^ 63)%Z -> safe_addition int64_t int64_t uint64_t a b = Ok (a + b)%Z.
Proof.
  intros a b Ha Hb H. change (2 ^ 63)%Z with 9223372036854775808%Z in H.
  assert (W : forall v, (0 <= v < 9223372036854775808)%Z -> wrap uint64_t v = v /\ wrap int64_t v = v).
  { intros v Hv. split; (apply Proof.Arith.wrap_id; [cbn; lia|]); unfold Proof.Arith.rep, Spec.Arith.representable; cbn [sgn bits uint64_t int64_t].
    - change (2 ^ Z.of_N 64)%Z with 18446744073709551616%Z. lia.
    - change (2 ^ (Z.of_N 64 - 1))%Z with 9223372036854775808%Z. lia. }
  unfold safe_addition. change (common int64_t uint64_t) with uint64_t.
  rewrite (proj1 (W a ltac:(lia))), (proj1 (W b ltac:(lia))). unfold arith. cbn [sgn uint64_t]. cbn [rbind].
  rewrite (proj1 (W (a + b)%Z ltac:(lia))), (proj2 (W (a + b)%Z ltac:(lia))).
  unfold cmp_lt. change (common int64_t int32_t) with int64_t. change (common int64_t int64_t) with int64_t.
  rewrite (proj2 (W a ltac:(lia))), (proj2 (W 0%Z ltac:(lia))), (proj2 (W (a + b)%Z ltac:(lia))).
  replace (a <? 0)%Z with false by lia. replace (a + b <? a)%Z with false by lia. reflexivity.
Qed.
Lemma number_length : forall z, (0 <= z < 2 ^ 63)%Z -> (List.length (to_string_Z z) <= 19)%nat.
Proof.
  intros z H. unfold to_string_Z. replace (z <? 0)%Z with false by lia. change 19%nat with (N.to_nat 19). apply digits_len; [lia|].
  change (10 ^ 19) with 10000000000000000000. change (2 ^ 63)%Z with 9223372036854775808%Z in H. lia.
Qed.
Lemma ranges_length : forall a b c, (0 <= a < 2 ^ 63)%Z -> (0 <= b < 2 ^ 63)%Z -> (0 <= c < 2 ^ 63)%Z ->
  (List.length (to_pdf (OArr (map OInt [0; a; b; c]%Z))) <= byte_range_room)%nat.
Proof.
  intros a b c Ha Hb Hc. apply number_length in Ha. apply number_length in Hb. apply number_length in Hc.
  cbn [map to_pdf join_sp]. rewrite !app_length. cbn [List.length]. unfold byte_range_room. change (List.length (to_string_Z 0)) with 1%nat. lia.
Qed.

Section Procedure.
Variable f : bytes -> res bytes.
Variables (s : settings) (num gen : N) (before after : bytes).
Let P := before ++ before_range num gen.
Let M := between s.
Let S := space_members (rest_of s) ++ closing ++ after.
Let a := Z.of_nat (List.length P + byte_range_room + List.length M).
Let b := (a + Z.of_N contents_room)%Z.
Let c := Z.of_nat (List.length S).
Let R := to_pdf (OArr (map OInt [0; a; b; c]%Z)).
Let X := R ++ repeat 32 (byte_range_room - List.length R).
Hypothesis size_ok : (b + c < 2 ^ 63)%Z.

Lemma room_pos : (0 < contents_room)%N. Proof. reflexivity. Qed.
Lemma range_fits : (List.length R <= byte_range_room)%nat.
Proof. unfold R. apply ranges_length; unfold a, b, c in *; lia. Qed.
Lemma length_X : List.length X = byte_range_room.
Proof. unfold X. rewrite app_length, repeat_length. pose proof range_fits. lia. Qed.

Lemma sign_document_none : fst (sign_document None s num gen before after) = Undef.
Proof.
  unfold sign_document. destruct (written_signature s num gen (N.of_nat (List.length before))) as (l & E & O1 & O2).
  rewrite E, O1, O2. clear E O1 O2. rewrite Nat2N.id.
  set (Y := repeat 32 (N.to_nat contents_room)). set (Q := repeat 32 byte_range_room).
  assert (LQ : List.length Q = byte_range_room) by apply repeat_length.
  assert (LY : List.length Y = N.to_nat contents_room) by apply repeat_length.
  assert (F : before ++ (before_range num gen ++ Q ++ between s ++ Y ++ space_members (rest_of s) ++ closing) ++ after = P ++ Q ++ M ++ Y ++ S).
  { unfold P, M, S. rewrite <- !app_assoc. reflexivity. }
  rewrite F. clear F.
  assert (A1 : (List.length before + List.length (before_range num gen) = List.length P)%nat) by (unfold P; rewrite app_length; lia).
  assert (A2 : Z.of_nat (List.length before + List.length (before_range num gen ++ Q ++ between s)) = a).
  { unfold a, P, M. rewrite !app_length, LQ. lia. }
  rewrite A1, A2. unfold sign_output.
  replace ((Z.of_nat (List.length P) =? -1)%Z || (a =? -1)%Z) with false by (unfold a; lia).
  assert (A3 : (0 <= a)%Z /\ (0 <= c)%Z) by (unfold a, c; lia). destruct A3 as [A3 A4].
  unfold new_ranges. rewrite offset_sum by (unfold b in size_ok; lia). fold b. cbn [rbind].
  assert (A5 : (Z.of_nat (List.length (P ++ Q ++ M ++ Y ++ S)) - b = c)%Z).
  { rewrite !app_length, LQ, LY. unfold b, a, c. lia. }
  rewrite A5. fold R.
  assert (W1 : write_at (Z.of_nat (List.length P)) R (P ++ Q ++ M ++ Y ++ S) = Ok (P ++ X ++ M ++ Y ++ S)).
  { pose proof range_fits as RF.
    assert (Q1 : Q = repeat 32 (List.length R) ++ repeat 32 (byte_range_room - List.length R)).
    { rewrite <- repeat_app. unfold Q. f_equal. lia. }
    rewrite Q1. unfold X. rewrite <- !app_assoc. apply write_at_middle. apply repeat_length. }
  rewrite W1. reflexivity.
Qed.

Lemma sign_document_eq : sign_document (Some f) s num gen before after =
  (match f (P ++ X ++ M ++ S) with
   | Ok v => match padded_signature v contents_room with
             | Ok t => Ok (P ++ X ++ M ++ t ++ S)
             | Throw e => Throw e | Undef => Undef | NoFuel => NoFuel
             end
   | Throw e => Throw e | Undef => Undef | NoFuel => NoFuel
   end, None).
Proof.
  unfold sign_document. destruct (written_signature s num gen (N.of_nat (List.length before))) as (l & E & O1 & O2).
  rewrite E, O1, O2. clear E O1 O2. rewrite Nat2N.id.
  set (Y := repeat 32 (N.to_nat contents_room)). set (Q := repeat 32 byte_range_room).
  assert (LQ : List.length Q = byte_range_room) by apply repeat_length.
  assert (LY : List.length Y = N.to_nat contents_room) by apply repeat_length.
  assert (F : before ++ (before_range num gen ++ Q ++ between s ++ Y ++ space_members (rest_of s) ++ closing) ++ after = P ++ Q ++ M ++ Y ++ S).
  { unfold P, M, S. rewrite <- !app_assoc. reflexivity. }
  rewrite F. clear F.
  assert (A1 : (List.length before + List.length (before_range num gen) = List.length P)%nat) by (unfold P; rewrite app_length; lia).
  assert (A2 : Z.of_nat (List.length before + List.length (before_range num gen ++ Q ++ between s)) = a).
  { unfold a, P, M. rewrite !app_length, LQ. lia. }
  rewrite A1, A2. unfold sign_output.
  replace ((Z.of_nat (List.length P) =? -1)%Z || (a =? -1)%Z) with false by (unfold a; lia).
  assert (A3 : (0 <= a)%Z /\ (0 <= c)%Z) by (unfold a, c; lia). destruct A3 as [A3 A4].
  unfold new_ranges. rewrite offset_sum by (unfold b in size_ok; lia). fold b. cbn [rbind].
  assert (A5 : (Z.of_nat (List.length (P ++ Q ++ M ++ Y ++ S)) - b = c)%Z).
  { rewrite !app_length, LQ, LY. unfold b, a, c. lia. }
  rewrite A5. fold R.
  assert (W1 : write_at (Z.of_nat (List.length P)) R (P ++ Q ++ M ++ Y ++ S) = Ok (P ++ X ++ M ++ Y ++ S)).
  { pose proof range_fits as RF.
    assert (Q1 : Q = repeat 32 (List.length R) ++ repeat 32 (byte_range_room - List.length R)).
    { rewrite <- repeat_app. unfold Q. f_equal. lia. }
    rewrite Q1. unfold X. rewrite <- !app_assoc. apply write_at_middle. apply repeat_length. }
  rewrite W1. cbn [rbind sign_initialize]. f_equal.
  assert (LX := length_X). unfold sign_ranges.
  assert (LF : List.length (P ++ X ++ M ++ Y ++ S) = (Z.to_nat b + Z.to_nat c)%nat).
  { rewrite !app_length, LX, LY. unfold b, a, c. lia. }
  assert (R1 : sign_range (P ++ X ++ M ++ Y ++ S) 0 a = Ok (P ++ X ++ M)).
  { unfold sign_range. change (0 <? 0)%Z with false. cbv iota. replace (a <? 0)%Z with false by lia. change (Z.to_nat 0) with 0%nat. cbn [skipn].
    rewrite sign_update_ok; [|unfold b in *; lia|unfold b in *; lia]. f_equal.
    assert (L3 : N.to_nat (Z.to_N a) = List.length (P ++ X ++ M)) by (rewrite !app_length, LX; unfold a; lia). rewrite L3.
    replace (P ++ X ++ M ++ Y ++ S) with ((P ++ X ++ M) ++ Y ++ S) by (rewrite <- !app_assoc; reflexivity).
    rewrite firstn_app, firstn_all, PeanoNat.Nat.sub_diag. cbn [firstn]. apply app_nil_r. }
  rewrite R1. cbn [rbind].
  assert (R2 : sign_range (P ++ X ++ M ++ Y ++ S) b c = Ok S).
  { unfold sign_range. replace (b <? 0)%Z with false by (unfold b; lia). replace (c <? 0)%Z with false by lia.
    assert (L3 : Z.to_nat b = List.length (P ++ X ++ M ++ Y)) by (rewrite !app_length, LX, LY; unfold b, a; lia). 
    replace (P ++ X ++ M ++ Y ++ S) with ((P ++ X ++ M ++ Y) ++ S) in * by (rewrite <- !app_assoc; reflexivity).
    rewrite L3, skipn_exact. rewrite sign_update_ok; [|unfold c; lia|rewrite app_length; unfold c; lia].
    f_equal. replace (N.to_nat (Z.to_N c)) with (List.length S) by (unfold c; lia). apply firstn_all. }
  rewrite R2. cbn [rbind]. rewrite <- !app_assoc.
  destruct (f (P ++ X ++ M ++ S)) as [v|e| |] eqn:Ef; try reflexivity. cbn [rbind].
  destruct (padded_signature v contents_room) as [t|e| |] eqn:Et; try reflexivity. cbn [rbind].
  assert (Lt : List.length t = N.to_nat contents_room).
  { unfold padded_signature in Et. cif_in Et; [discriminate|]. apply Ok_inj in Et. subst t.
    assert (Lh : (1 <= List.length (hex_to_pdf v))%nat) by (unfold hex_to_pdf; rewrite !app_length; cbn [List.length]; lia).
    rewrite !app_length, firstn_length, skipn_length, repeat_length. lia. }
  assert (La : a = Z.of_nat (List.length (P ++ X ++ M))) by (rewrite !app_length, LX; unfold a; lia).
  rewrite La. replace (P ++ X ++ M ++ Y ++ S) with ((P ++ X ++ M) ++ Y ++ S) by (rewrite <- !app_assoc; reflexivity).
  rewrite write_at_middle by (rewrite LY, Lt; reflexivity). rewrite <- !app_assoc. reflexivity.
Qed.
End Procedure.

(** the text of a dictionary whose white space was not filled in *)
Lemma unsigned_text : forall s, settings_ok s -> s_certificate s = None ->
  object_text ([60; 60] ++ ((47 :: byte_range_key) ++ [32] ++ repeat 32 byte_range_room ++ between s ++ repeat 32 (N.to_nat contents_room) ++
    space_members (rest_of s)) ++ [62; 62]) (ODict ((byte_range_key, OName contents_key) :: rest_of s)).
Proof.
  intros s Hs Hc. set (es := (byte_range_key, OName contents_key) :: rest_of s).
  assert (F : Forall (fun e => member_ok e /\ snd e <> ONull) es).
  { unfold es. constructor; [split; [split; [apply str_all_bytes|cbn [snd]; apply w_name, str_all_bytes]|discriminate]|].
    assert (M := rest_ok s Hs). apply Forall_forall. intros e He. split; [rewrite Forall_forall in M; apply M; exact He|].
    clear - He. unfold rest_of, optional in He. rewrite !in_app_iff in He. cbn [In] in He.
    destruct (s_location s), (s_time s), (s_name s), (s_reason s); cbn [In] in He; intuition (subst; discriminate). }
  apply (ot_dict _ es).
  - destruct (entries_members (rest_of s) [] [] (rest_ok s Hs) (en_nil [] gap_nil) I) as [E1 E2]. rewrite !app_nil_r in E1, E2. unfold bytes in E1. rewrite app_nil_r in E1.
    unfold between. replace (middle s) with (@nil (bytes * obj)) by (unfold middle; rewrite Hc; reflexivity). unfold space_members at 1. cbn [flat_map].
    unfold es. change byte_range_key with (name_to_string byte_range_key) at 1.
    generalize (repeat 32 byte_range_room) (spaces_gap byte_range_room) (repeat 32 (N.to_nat contents_room)) (spaces_gap (N.to_nat contents_room)).
    intros x Hx y Hy.
    assert (E3 : entries_text ([] ++ (47 :: name_to_string byte_range_key) ++ ([32] ++ x ++ [32]) ++ to_pdf (OName contents_key) ++ ([32] ++ y) ++ space_members (rest_of s))
      ((byte_range_key, OName contents_key) :: rest_of s)).
    { apply en_cons; [constructor|apply name_to_string_text, str_all_bytes|repeat apply gap_app; try exact gap_sp; exact Hx|apply to_pdf_text, w_name, str_all_bytes| |cbn; tauto|intros _; cbn; tauto].
      apply entries_gap; [apply gap_app; [exact gap_sp|exact Hy]|exact E1]. }
    match goal with |- entries_text ?t _ => match type of E3 with entries_text ?u _ => replace t with u; [exact E3|] end end.
    change (to_pdf (OName contents_key)) with (47 :: contents_key). cbn [app]. rewrite <- !app_assoc. reflexivity.
  - apply sorted_content.
    + apply keys_sorted_back; [|unfold sm_keys_ok; eapply Forall_impl; [|exact F]; intros e [[H _] _]; exact H].
      unfold es. clear. destruct s as [c [n|] [l|] [r|] [t|]]; unfold rest_of, optional, sm_sorted; cbn [s_certificate s_name s_location s_reason s_time app];
        repeat (constructor; [|repeat (constructor; [reflexivity|]); constructor]); constructor.
    + eapply Forall_impl; [|exact F]. cbn. tauto.
Qed.

(** C59: signing a document. *)
From Coq Require Import List NArith ZArith Bool Lia String.
From Coq Require Import List.
From Verif.Model Require Import Base Char Numbers SMap Object Token Parser FileWrite Sign.
From Verif.Spec Require Import Strings Grammar Sign.
From Verif.Proof Require Import Tac Writer FileWrite.
From Verif.Proof Require Sign.
Import ListNotations.
Local Open Scope N_scope.

(** the file as the writer leaves it, with white space where the byte ranges and the signature will be *)
Definition unsigned (s : settings) (num gen : N) (before after : bytes) : bytes :=
  before ++ fst (write_signature num gen (N.of_nat (List.length before)) (signature_dictionary s)) ++ after.

Lemma unsigned_eq : forall s num gen before after, unsigned s num gen before after =
  (before ++ Sign.before_range num gen) ++ repeat 32 byte_range_room ++ Sign.between s ++ repeat 32 (N.to_nat contents_room) ++
  (Sign.space_members (Sign.rest_of s) ++ Sign.closing ++ after).
Proof.
  intros s num gen before after. unfold unsigned. destruct (Sign.written_signature s num gen (N.of_nat (List.length before))) as (l & E & _).
  rewrite E. cbn [fst]. rewrite <- !app_assoc. reflexivity.
Qed.

(** A signed file verifies: for every document (any bytes before and after the signature dictionary), any settings and any signing
    function, the dictionary is read back from the finished file with all settings, its byte ranges cover the whole file except the
    text of Contents, and Contents is the signature of exactly those bytes. *)
Theorem C59_signature_verifies : forall rl sign s num gen before after file k,
  (forall d v, sign d = Ok v -> all_bytes v) ->
  made_of_bytes [s_certificate s; s_name s; s_location s; s_reason s; s_time s] ->
  num < 2 ^ 63 -> gen <= 65535 -> (Z.of_nat (List.length (unsigned s num gen before after)) < 2 ^ 63)%Z ->
  sign_document (Some sign) s num gen before after = (Ok file, k) ->
  exists m, signed_file rl sign file (List.length before) num gen m /\
    has_settings (s_certificate s) (s_name s) (s_location s) (s_reason s) (s_time s) m.
Proof.
  intros rl f s num gen before after file k Hf Hs Hn Hg Hl H. rewrite unsigned_eq in Hl.
  assert (Hsz := Hl). rewrite !app_length, !repeat_length in Hsz.
  rewrite Sign.sign_document_eq in H by (try exact Hf; rewrite ?app_length; lia).
  set (P := before ++ Sign.before_range num gen) in *. set (S := Sign.space_members (Sign.rest_of s) ++ Sign.closing ++ after) in *.
  set (a := Z.of_nat (List.length P + byte_range_room + List.length (Sign.between s))) in *.
  set (c := Z.of_nat (List.length S)) in *.
  remember (to_pdf (OArr (map OInt [0; a; a + Z.of_N contents_room; c]%Z))) as R eqn:ER.
  set (X := R ++ repeat 32 (byte_range_room - List.length R)) in *.
  injection H as H _. destruct (f (P ++ X ++ Sign.between s ++ S)) as [v|e| |] eqn:Ev; try discriminate.
  destruct (padded_signature v contents_room) as [t|e| |] eqn:Et; try discriminate. injection H as <-.
  assert (Hv := Hf _ _ Ev).
  assert (Hroom : 2 * N.of_nat (List.length v) + 2 <= 2 * 16384).
  { unfold padded_signature in Et. rewrite Sign.hex_length in Et by exact Hv. unfold contents_room in Et. cif_in Et; [discriminate|]. lia. }
  change contents_room with (2 * 16384) in Et. rewrite Sign.padded_text in Et by assumption. apply Ok_inj in Et.
  set (zeros := (N.to_nat 16384 - 1 - List.length v)%nat) in *. set (w := v ++ repeat 0 zeros) in *.
  assert (Hw : all_bytes w).
  { unfold w. apply Forall_app. split; [exact Hv|]. apply Forall_forall. intros x Hx. apply repeat_spec in Hx. subst x. unfold is_byte. lia. }
  assert (Lt : List.length t = N.to_nat contents_room).
  { subst t. rewrite Sign.hex_length by exact Hw. unfold w, zeros. rewrite app_length, repeat_length. unfold contents_room. lia. }
  assert (LR : (List.length R <= byte_range_room)%nat).
  { subst R. apply Sign.ranges_length; unfold a, c, P, S in *; rewrite ?app_length in *; lia. }
  assert (LX : List.length X = byte_range_room) by (unfold X; rewrite app_length, repeat_length; lia).
  set (r := [0; a; a + Z.of_N contents_room; c]%Z) in *.
  assert (Hr : Forall (fun z => (- 2 ^ 63 <= z < 2 ^ 63)%Z) r).
  { unfold r, a, c, P, S. rewrite !app_length in *. repeat constructor; lia. }
  exists (Sign.signed_entries s r w). split.
  - exists ([10] ++ after), a, (a + Z.of_N contents_room)%Z, c, v, zeros.
    assert (Ga : a = Z.of_nat (List.length (P ++ X ++ Sign.between s))) by (rewrite !app_length, LX; unfold a; lia).
    assert (Gb : (a + Z.of_N contents_room = Z.of_nat (List.length (P ++ X ++ Sign.between s ++ t)))%Z).
    { rewrite !app_length, LX, Lt. unfold a. lia. }
    assert (Sb : forall z (x y : bytes), z = Z.of_nat (List.length x) -> skipn (Z.to_nat z) (x ++ y) = y).
    { intros z x y ->. rewrite Nat2Z.id. apply skipn_exact. }
    assert (Sf : forall z (x y : bytes), z = Z.of_nat (List.length x) -> firstn (Z.to_nat z) (x ++ y) = x).
    { intros z x y ->. rewrite Nat2Z.id, firstn_app, firstn_all, PeanoNat.Nat.sub_diag. cbn [firstn]. apply app_nil_r. }
    split; [|split; [|split; [|split; [|split]]]].
    + assert (E : skipn (List.length before) (P ++ X ++ Sign.between s ++ t ++ S) =
        (to_string_N num ++ [32] ++ to_string_N gen ++ [32] ++ str "obj" ++ [10]) ++
        ([60; 60] ++ ((47 :: Sign.byte_range_key) ++ [32] ++ R ++ repeat 32 (byte_range_room - List.length R) ++ Sign.between s ++ t ++
          Sign.space_members (Sign.rest_of s)) ++ [62; 62]) ++ ([10] ++ str "endobj" ++ [10]) ++ after).
      { unfold P. rewrite <- !app_assoc, skipn_exact. unfold Sign.before_range, Sign.heading, X, S, Sign.closing. rewrite <- !app_assoc. reflexivity. }
      rewrite E. apply Sign.read_text_object; [exact Hn|exact Hg|]. subst R t. apply Sign.signed_text; [exact Hs|exact Hr|exact Hw].
    + reflexivity.
    + unfold Sign.signed_entries. change ((Sign.byte_range_key, OArr (map OInt r)) :: Sign.middle s ++ (Sign.contents_key, OHex w) :: Sign.rest_of s) with
        (((Sign.byte_range_key, OArr (map OInt r)) :: Sign.middle s) ++ (Sign.contents_key, OHex w) :: Sign.rest_of s).
      rewrite Sign.find_skip; [reflexivity|]. cbn [map fst]. intros x [<-|Hx]; [reflexivity|].
      unfold Sign.middle, Sign.optional in Hx. destruct (s_certificate s); cbn in Hx; [|tauto]. destruct Hx as [<-|[]]. reflexivity.
    + split; [|split; [|split]].
      * unfold a, byte_range_room. lia.
      * unfold contents_room. lia.
      * unfold c, S, Sign.closing. rewrite !app_length. cbn [List.length]. lia.
      * rewrite Gb. unfold c. rewrite !app_length. lia.
    + unfold slice. replace (P ++ X ++ Sign.between s ++ t ++ S) with ((P ++ X ++ Sign.between s) ++ t ++ S) by (rewrite <- !app_assoc; reflexivity).
      rewrite (Sb _ _ _ Ga), (Sf _ t) by (rewrite Lt; lia). rewrite <- Et. apply (to_pdf_text (OHex w)). apply w_hex. exact Hw.
    + unfold slice. change (Z.to_nat 0) with 0%nat. cbn [skipn].
      replace (P ++ X ++ Sign.between s ++ t ++ S) with ((P ++ X ++ Sign.between s) ++ t ++ S) at 1 by (rewrite <- !app_assoc; reflexivity).
      rewrite (Sf _ _ _ Ga).
      replace (P ++ X ++ Sign.between s ++ t ++ S) with ((P ++ X ++ Sign.between s ++ t) ++ S) by (rewrite <- !app_assoc; reflexivity).
      rewrite (Sb _ _ _ Gb). unfold c. rewrite Nat2Z.id, firstn_all. rewrite <- !app_assoc. exact Ev.
  - clear. destruct s as [[c0|] [n|] [l|] [q|] [u|]]; repeat split; reflexivity.
Qed.

(** The white space left for the two values is all that signing changes: the finished file has the length of the written one and
    agrees with it everywhere else, so the object table written before stays right. *)
Theorem C59_only_placeholders_change : forall sign s num gen before after file k,
  (forall d v, sign d = Ok v -> all_bytes v) ->
  (Z.of_nat (List.length (unsigned s num gen before after)) < 2 ^ 63)%Z ->
  sign_document (Some sign) s num gen before after = (Ok file, k) ->
  filled_in (unsigned s num gen before after) file 100 (N.to_nat 32768).
Proof.
  intros f s num gen before after file k Hf Hl H. rewrite unsigned_eq in *.
  assert (Hsz := Hl). rewrite !app_length, !repeat_length in Hsz.
  rewrite Sign.sign_document_eq in H by (try exact Hf; rewrite ?app_length; lia).
  set (P := before ++ Sign.before_range num gen) in *. set (S := Sign.space_members (Sign.rest_of s) ++ Sign.closing ++ after) in *.
  set (a := Z.of_nat (List.length P + byte_range_room + List.length (Sign.between s))) in *.
  set (c := Z.of_nat (List.length S)) in *.
  remember (to_pdf (OArr (map OInt [0; a; a + Z.of_N contents_room; c]%Z))) as R eqn:ER.
  set (X := R ++ repeat 32 (byte_range_room - List.length R)) in *.
  injection H as H _. destruct (f (P ++ X ++ Sign.between s ++ S)) as [v|e| |] eqn:Ev; try discriminate.
  destruct (padded_signature v contents_room) as [t|e| |] eqn:Et; try discriminate. injection H as <-.
  assert (LR : (List.length R <= byte_range_room)%nat).
  { subst R. apply Sign.ranges_length; unfold a, c, P, S in *; rewrite ?app_length in *; lia. }
  exists P, X, (Sign.between s), t, S. split; [reflexivity|]. split; [reflexivity|]. split.
  - unfold X. rewrite app_length, repeat_length. change 100%nat with byte_range_room. lia.
  - assert (Hv := Hf _ _ Ev).
    assert (Hroom : 2 * N.of_nat (List.length v) + 2 <= 2 * 16384).
    { unfold padded_signature in Et. rewrite Sign.hex_length in Et by exact Hv. unfold contents_room in Et. cif_in Et; [discriminate|]. lia. }
    change contents_room with (2 * 16384) in Et. rewrite Sign.padded_text in Et by assumption. apply Ok_inj in Et. subst t.
    rewrite Sign.hex_length, app_length, repeat_length; [lia|].
    apply Forall_app. split; [exact Hv|]. apply Forall_forall. intros x Hx. apply repeat_spec in Hx. subst x. unfold is_byte. lia.
Qed.

(** Signing succeeds whenever the signature fits into the room left for it ... *)
Theorem C59_small_signature_accepted : forall sign s num gen before after,
  (forall d, exists v, sign d = Ok v /\ all_bytes v /\ (N.of_nat (List.length v) <= 16383)) ->
  (Z.of_nat (List.length (unsigned s num gen before after)) < 2 ^ 63)%Z ->
  exists file k, sign_document (Some sign) s num gen before after = (Ok file, k).
Proof.
  intros f s num gen before after Hf Hl. rewrite unsigned_eq in Hl. rewrite !app_length, !repeat_length in Hl.
  rewrite Sign.sign_document_eq; [|rewrite ?app_length; lia].
  match goal with |- context [f ?d] => destruct (Hf d) as (v & Ev & Hv & Lv); rewrite Ev end.
  change contents_room with (2 * 16384). rewrite Sign.padded_text by (try exact Hv; lia). do 2 eexists. reflexivity.
Qed.

(** ... and a signature that is too long, or a key that fails, is reported: no file is produced. *)
Theorem C59_large_signature_reported : forall sign s num gen before after,
  (forall d, (exists v, sign d = Ok v /\ all_bytes v /\ 16383 < N.of_nat (List.length v)) \/ sign d = Throw EGeneral) ->
  (Z.of_nat (List.length (unsigned s num gen before after)) < 2 ^ 63)%Z ->
  exists k, sign_document (Some sign) s num gen before after = (Throw EGeneral, k).
Proof.
  intros f s num gen before after Hf Hl. rewrite unsigned_eq in Hl. rewrite !app_length, !repeat_length in Hl.
  rewrite Sign.sign_document_eq; [|rewrite ?app_length; lia].
  match goal with |- context [f ?d] => destruct (Hf d) as [(v & Ev & Hv & Lv)|Ev]; rewrite Ev end; [|eexists; reflexivity].
  unfold padded_signature. rewrite Sign.hex_length by exact Hv. unfold contents_room. cif; [eexists; reflexivity|lia].
Qed.

(** Finding: a key signs one document only. Whatever came of the first signing, the private key and the certificate have been
    released, and signing any document with the same key again uses them after that. *)
Theorem C59_key_reuse_refuted : forall sign s num gen before after r k s2 num2 gen2 before2 after2,
  (Z.of_nat (List.length (unsigned s num gen before after)) < 2 ^ 63)%Z ->
  (Z.of_nat (List.length (unsigned s2 num2 gen2 before2 after2)) < 2 ^ 63)%Z ->
  sign_document (Some sign) s num gen before after = (r, k) ->
  fst (sign_document k s2 num2 gen2 before2 after2) = Undef.
Proof.
  intros f s num gen before after r k s2 num2 gen2 before2 after2 Hl Hl2 H. rewrite unsigned_eq in Hl. rewrite !app_length, !repeat_length in Hl.
  rewrite Sign.sign_document_eq in H by (rewrite ?app_length; lia). apply (f_equal snd) in H. cbn [snd] in H. subst k. apply Sign.sign_document_none; [exact (fun _ => Undef)|].
  rewrite unsigned_eq in Hl2. rewrite !app_length, !repeat_length in Hl2. rewrite ?app_length; lia.
Qed.

(** Finding: the dictionary kept in memory is never given the values that were written over the white space. Writing it once more,
    as saving or signing the document again in the same session does, gives a dictionary that is read back without Contents,
    and with the name Contents as its byte ranges. *)
Theorem C59_written_again_refuted : forall rl s num gen pos rest,
  made_of_bytes [s_certificate s; s_name s; s_location s; s_reason s; s_time s] -> s_certificate s = None ->
  num < 2 ^ 63 -> gen <= 65535 ->
  exists m more, read_indirect_object parser_dictionary rl (fst (write_signature num gen pos (signature_dictionary s)) ++ rest) = Ok (num, gen, ODict m, more) /\
    sm_find (str "ByteRange") m = Some (OName (str "Contents")) /\ sm_find (str "Contents") m = None.
Proof.
  intros rl s num gen pos rest Hs Hc Hn Hg. destruct (Sign.written_signature s num gen pos) as (l & E & _). rewrite E. cbn [fst].
  exists ((Sign.byte_range_key, OName Sign.contents_key) :: Sign.rest_of s), ([10] ++ rest). split; [|split; [reflexivity|]].
  - assert (F : (Sign.before_range num gen ++ repeat 32 byte_range_room ++ Sign.between s ++ repeat 32 (N.to_nat contents_room) ++ Sign.space_members (Sign.rest_of s) ++ Sign.closing) ++ rest =
        (to_string_N num ++ [32] ++ to_string_N gen ++ [32] ++ str "obj" ++ [10]) ++
        ([60; 60] ++ ((47 :: Sign.byte_range_key) ++ [32] ++ repeat 32 byte_range_room ++ Sign.between s ++ repeat 32 (N.to_nat contents_room) ++
          Sign.space_members (Sign.rest_of s)) ++ [62; 62]) ++ ([10] ++ str "endobj" ++ [10]) ++ rest).
    { unfold Sign.before_range, Sign.heading, Sign.closing. rewrite <- !app_assoc. reflexivity. }
    rewrite F. apply Sign.read_text_object; [exact Hn|exact Hg|]. apply Sign.unsigned_text; [exact Hs|exact Hc].
  - clear -Hc. destruct s as [[c0|] [n|] [q|] [t|] [u|]]; try discriminate; reflexivity.
Qed.

(** The hypotheses are met by an ordinary document, settings and key. *)
Definition example_settings : settings := Build_settings (Some [48; 130; 1; 255]) (Some (str "A. Signer")) None (Some (str "Approval (final)")) (Some (str "D:20240101000000Z")).
Definition example_sign (d : bytes) : res bytes := Ok [N.of_nat (List.length d) mod 256; 7; 200].
Lemma example_bytes : made_of_bytes [s_certificate example_settings; s_name example_settings; s_location example_settings; s_reason example_settings; s_time example_settings].
Proof.
  intros v [H|[H|[H|[H|[H|[]]]]]]; try discriminate; cbn [example_settings s_certificate s_name s_location s_reason s_time] in H; injection H as <-;
    first [apply Sign.str_all_bytes|repeat (apply Forall_cons; [unfold is_byte; lia|]); apply Forall_nil].
Qed.
Lemma example_size : (Z.of_nat (List.length (unsigned example_settings 12 0 (str "%PDF-1.7 objects ") (str " xref"))) < 2 ^ 63)%Z.
Proof.
  rewrite unsigned_eq, !app_length, !repeat_length.
  assert (L2 : PeanoNat.Nat.leb (List.length (Sign.between example_settings)) 200 = true) by reflexivity.
  assert (L3 : PeanoNat.Nat.leb (List.length (Sign.space_members (Sign.rest_of example_settings))) 300 = true) by reflexivity.
  assert (L4 : PeanoNat.Nat.leb (List.length Sign.closing) 100 = true) by reflexivity.
  assert (L5 : PeanoNat.Nat.leb (List.length (Sign.before_range 12 0)) 100 = true) by reflexivity.
  assert (L6 : List.length (str "%PDF-1.7 objects ") = 17%nat) by reflexivity.
  assert (L7 : List.length (str " xref") = 5%nat) by reflexivity.
  rewrite L6, L7. apply PeanoNat.Nat.leb_le in L2, L3, L4, L5. unfold byte_range_room, contents_room.
  revert L2 L3 L4 L5. generalize (List.length (Sign.between example_settings)) (List.length (Sign.space_members (Sign.rest_of example_settings)))
    (List.length Sign.closing) (List.length (Sign.before_range 12 0)). intros. lia.
Qed.
Example C59_case : exists file k m,
  sign_document (Some example_sign) example_settings 12 0 (str "%PDF-1.7 objects ") (str " xref") = (Ok file, k) /\
  signed_file (fun _ _ => Throw EObjectMissing) example_sign file 17 12 0 m /\ List.length file = List.length (unsigned example_settings 12 0 (str "%PDF-1.7 objects ") (str " xref")).
Proof.
  assert (Hs : forall d v, example_sign d = Ok v -> all_bytes v).
  { intros d v H. apply Ok_inj in H. subst v. repeat (apply Forall_cons; [unfold is_byte; try (apply N.mod_lt; lia); lia|]). apply Forall_nil. }
  assert (Hl : (Z.of_nat (List.length (unsigned example_settings 12 0 (str "%PDF-1.7 objects ") (str " xref"))) < 2 ^ 63)%Z).
  { apply example_size. }
  destruct (C59_small_signature_accepted example_sign example_settings 12 0 (str "%PDF-1.7 objects ") (str " xref")) as (file & k & E); [|exact Hl|].
  { intros d. eexists. split; [reflexivity|]. split; [apply (Hs d); reflexivity|]. cbn. lia. }
  destruct (C59_signature_verifies (fun _ _ => Throw EObjectMissing) example_sign example_settings 12 0 (str "%PDF-1.7 objects ") (str " xref") file k Hs) as (m & Hm & _); try exact E; try exact Hl; try lia.
  { exact example_bytes. }
  exists file, k, m. split; [exact E|]. split; [exact Hm|].
  destruct (C59_only_placeholders_change example_sign example_settings 12 0 (str "%PDF-1.7 objects ") (str " xref") file k Hs Hl E) as (p & x & q & y & r & E1 & E2 & L1 & L2).
  rewrite E1, E2, !app_length, !repeat_length. lia.
Qed.

Print Assumptions C59_signature_verifies.
Print Assumptions C59_only_placeholders_change.
Print Assumptions C59_small_signature_accepted.
Print Assumptions C59_large_signature_reported.
Print Assumptions C59_key_reuse_refuted.
Print Assumptions C59_written_again_refuted.

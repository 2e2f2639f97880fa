(** C54: streams whose Length entry is missing or wrong. *)
From Coq Require Import List NArith ZArith Bool Lia String.
From Verif.Model Require Import Base Object Token Parser.
From Verif.Spec Require Import Strings Grammar Recover.
From Verif.Model Require Lines.
From Verif.Proof Require Writer StreamObj FileWrite.
From Verif.Proof Require Import Recover.
Import ListNotations.
Local Open Scope N_scope.

(** [len] tells the integer objects of the file, [resolve] is how the parser looks them up *)
Theorem C54_recovered_own_line : forall len resolve dt m g eol data e2 e3 g3 rest,
  (forall n v z, len n v = Some z -> resolve n v = Ok z) ->
  object_text dt (ODict m) -> gap g -> In eol [[10]; [13; 10]] ->
  ~ occurs (str "endstream") data -> In e2 [[10]; [13]; [13; 10]] -> (e2 = [10] -> forall x, data <> x ++ [13]) ->
  In e3 [[10]; [13; 10]] -> gap g3 -> token_ends rest ->
  damaged_length len m (data ++ e2 ++ str "endstream" ++ e3 ++ g3 ++ str "endobj" ++ rest) ->
  exists m', parse_direct parser_dictionary resolve
      (dt ++ g ++ str "stream" ++ eol ++ data ++ e2 ++ str "endstream" ++ e3 ++ g3 ++ str "endobj" ++ rest)
    = Ok (OStream m' data, e3 ++ g3 ++ str "endobj" ++ rest) /\ corrected m m' (List.length data).
Proof.
  intros len resolve dt m g eol data e2 e3 g3 rest Hrl Hd Hg He Hw He2 Hcr He3 Hg3 Hr Hdam.
  destruct (object_recovers len resolve Hrl dt m g eol _ _ _ Hd Hg He Hdam (scan_own_line data e2 e3 g3 rest Hw He2 Hcr He3 Hg3 Hr)) as (m' & H & C).
  exists m'. rewrite firstn_app, firstn_all, Nat.sub_diag in H. cbn [firstn] in H. rewrite app_nil_r in H. auto.
Qed.

(** the library writes no line end between the data and endstream *)
Theorem C54_recovered_same_line : forall len resolve dt m g eol data x e3 g3 rest,
  (forall n v z, len n v = Some z -> resolve n v = Ok z) ->
  object_text dt (ODict m) -> gap g -> In eol [[10]; [13; 10]] ->
  ~ occurs (str "endstream") (data ++ [x]) -> x <> 10 -> x <> 13 ->
  In e3 [[10]; [13; 10]] -> gap g3 -> token_ends rest ->
  damaged_length len m ((data ++ [x]) ++ str "endstream" ++ e3 ++ g3 ++ str "endobj" ++ rest) ->
  exists m', parse_direct parser_dictionary resolve
      (dt ++ g ++ str "stream" ++ eol ++ (data ++ [x]) ++ str "endstream" ++ e3 ++ g3 ++ str "endobj" ++ rest)
    = Ok (OStream m' (data ++ [x]), g3 ++ str "endobj" ++ rest) /\ corrected m m' (List.length (data ++ [x])).
Proof.
  intros len resolve dt m g eol data x e3 g3 rest Hrl Hd Hg He Hw H10 H13 He3 Hg3 Hr Hdam.
  destruct (object_recovers len resolve Hrl dt m g eol _ _ _ Hd Hg He Hdam (scan_same_line data x e3 g3 rest Hw H10 H13 He3 Hg3 Hr)) as (m' & H & C).
  exists m'. rewrite firstn_app, firstn_all, Nat.sub_diag in H. cbn [firstn] in H. rewrite app_nil_r in H. auto.
Qed.

(** A wrong Length that leads to text which is not a token makes the object unreadable. *)
Theorem C54_length_at_stray_character_refuted : exists data e,
  ~ occurs (str "endstream") data /\
  parse_direct parser_dictionary (fun _ _ => Throw EParse)
    (str "<</Length 1>>" ++ [10] ++ str "stream" ++ [10] ++ data ++ [10] ++ str "endstream" ++ [10] ++ str "endobj") = Throw e.
Proof.
  exists (str "a>b"). eexists. split; [|vm_compute; reflexivity].
  intros (a & b & E). apply (f_equal (@List.length N)) in E. rewrite !app_length in E. cbn in E. lia.
Qed.
(** Data that ends with a carriage return loses it when a line feed stands before endstream. *)
Theorem C54_trailing_return_refuted : exists m,
  parse_direct parser_dictionary (fun _ _ => Throw EParse)
    (str "<<>>" ++ [10] ++ str "stream" ++ [10] ++ (str "ab" ++ [13]) ++ [10] ++ str "endstream" ++ [10] ++ str "endobj")
  = Ok (OStream m (str "ab"), [10] ++ str "endobj").
Proof. eexists. vm_compute. reflexivity. Qed.

Example C54_case : exists m',
  parse_direct parser_dictionary (fun _ _ => Throw EParse)
    (str "<</Length 4>>" ++ [10] ++ str "stream" ++ [13; 10] ++ str "one two" ++ [10] ++ str "three" ++ [13; 10] ++ str "endstream" ++ [10] ++ [] ++ str "endobj" ++ [])
  = Ok (OStream m' (str "one two" ++ [10] ++ str "three"), [10] ++ str "endobj") /\
  corrected [(str "Length", OInt 4)] m' 13.
Proof.
  apply (C54_recovered_own_line (fun _ _ => None) (fun _ _ => Throw EParse) (str "<</Length 4>>") [(str "Length", OInt 4)] [10] [13; 10]
    (str "one two" ++ [10] ++ str "three") [13; 10] [10] [] []).
  - discriminate.
  - apply (Verif.Proof.Writer.to_pdf_text (ODict [(str "Length", OInt 4)])). apply Verif.Proof.FileWrite.writable_from.
    + repeat constructor.
    + constructor; [apply Verif.Proof.StreamObj.str_bytes|constructor].
    + constructor; [split; [constructor; lia|discriminate]|constructor].
  - apply gap_white; [cbn; tauto|exact gap_nil].
  - cbn; tauto.
  - intros (a & b & E). assert (E2 : Verif.Model.Lines.find_sub (str "endstream") (a ++ str "endstream" ++ b) = None) by (rewrite <- E; vm_compute; reflexivity).
    clear E. change (str "endstream") with W in E2. induction a as [|c a IH]; [|apply IH]; cbn [app Verif.Model.Lines.find_sub] in E2; [discriminate|].
    destruct (Verif.Model.Lines.is_prefix W (c :: a ++ W ++ b)); [discriminate|]. destruct (Verif.Model.Lines.find_sub W (a ++ W ++ b)); [discriminate|reflexivity].
  - cbn; tauto.
  - discriminate.
  - cbn; tauto.
  - exact gap_nil.
  - exact I.
  - apply (dl_word _ _ _ 4 (str "one ") [] (str "two") ([10] ++ str "three" ++ [13; 10] ++ str "endstream" ++ [10] ++ [] ++ str "endobj" ++ []));
      [left; left; reflexivity|reflexivity|reflexivity|exact gap_nil|discriminate| |cbn; tauto|discriminate].
    repeat (constructor; [split; cbn; intuition discriminate|]). constructor.
Qed.

Print Assumptions C54_recovered_own_line.
Print Assumptions C54_recovered_same_line.
Print Assumptions C54_length_at_stray_character_refuted.
Print Assumptions C54_trailing_return_refuted.

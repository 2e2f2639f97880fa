(** C20, C49: the last lines and the header of a file. *)
From Coq Require Import List NArith ZArith Bool Lia String.
From Verif.Model Require Import Base Char Numbers Token StartXref Lines Header.
From Verif.Spec Require Import Strings Grammar FileWrite.
From Verif.Proof Require Import Tac StartXref.
Import ListNotations.
Local Open Scope N_scope.

(** C20.  [content] is everything written before the last lines: empty or ended by white space, as everything the writer emits.
    [ws] is white space an editor or a transport may have added behind. *)
Theorem C20_startxref_found : forall content ws offset, content = [] \/ (exists p x, content = p ++ [x] /\ In x pdf_white) ->
  Forall (fun c => In c pdf_white) ws -> (List.length ws <= N.to_nat 16000)%nat -> (0 <= offset < 2 ^ 63)%Z ->
  last_xref_offset (content ++ write_xref_offset offset ++ ws) = Ok offset.
Proof. intros content ws offset Hc Hw Hl Ho. exact (last_offset_found content ws offset Hc Hw Hl Ho). Qed.
(** in particular the newest of several revisions is found *)
Theorem C20_last_revision_found : forall old middle o1 o2, (exists p x, middle = p ++ [x] /\ In x pdf_white) -> (0 <= o2 < 2 ^ 63)%Z ->
  last_xref_offset (old ++ write_xref_offset o1 ++ middle ++ write_xref_offset o2) = Ok o2.
Proof.
  intros old middle o1 o2 (p & x & -> & Hx) H2.
  assert (E := last_offset_found (old ++ write_xref_offset o1 ++ p ++ [x]) [] o2). rewrite app_nil_r in E.
  rewrite <- !app_assoc in E. rewrite <- app_assoc. apply E; [|constructor|cbn; lia|exact H2].
  right. exists (old ++ write_xref_offset o1 ++ p), x. split; [rewrite <- !app_assoc; reflexivity|exact Hx].
Qed.
(** without white space in front of it the keyword is not recognised *)
Theorem C20_needs_line_end : exists content offset e, last_xref_offset (content ++ write_xref_offset offset) = Throw e.
Proof. exists [120], 5%Z. eexists. vm_compute. reflexivity. Qed.
Example C20_case : last_xref_offset (str "%PDF-1.4" ++ [10] ++ write_xref_offset 8123456789 ++ [13; 10; 32]) = Ok 8123456789%Z /\
  last_xref_offset (write_xref_offset 1 ++ str "x" ++ [10] ++ write_xref_offset 77) = Ok 77%Z.
Proof. split; vm_compute; reflexivity. Qed.

(** C49.  Any lines that are not header lines, of the form %PDF-1.d or %PDF-2.d, may stand in front. *)
Theorem C49_header_roundtrip_partial : forall ls v rest, Forall garbage_line ls ->
  read_header (lines_text ls ++ write_header v ++ rest) = Ok v.
Proof. exact header_roundtrip. Qed.
(** Garbage in front on the same line: the header is not found. *)
Lemma match_header_garbage : forall g more, g <> [] -> ~ (exists m, g = str "%PDF-" ++ m) -> match_header (g ++ str "%PDF-" ++ more) = None.
Proof.
  intros g more Hne Hg. destruct (match_header (g ++ str "%PDF-" ++ more)) as [ab|] eqn:E; [|reflexivity]. exfalso.
  apply match_header_prefix in E. destruct E as (m & E). cbn in E.
  destruct g as [|a [|b [|c [|d [|e g]]]]]; cbn in E; inversion E; subst; try congruence. apply Hg. exists g. reflexivity.
Qed.
Theorem C49_same_line_refuted : forall g v, g <> [] -> Forall (fun c => c <> 10 /\ c <> 13) g -> ~ (exists more, g = str "%PDF-" ++ more) ->
  read_header (g ++ write_header v) = Throw EGeneral.
Proof.
  intros g v Hne Hg Hp. unfold read_header.
  replace (g ++ write_header v) with ((g ++ str "%PDF-" ++ version_text v) ++ 10 :: [37; 222; 173; 192; 222; 10]).
  2: { unfold write_header. rewrite <- !app_assoc. reflexivity. }
  assert (Hn : exists k, List.length ((g ++ str "%PDF-" ++ version_text v) ++ 10 :: [37; 222; 173; 192; 222; 10]) = S (S k)).
  { rewrite app_length. cbn [List.length]. eexists. rewrite Nat.add_comm. cbn [Nat.add]. reflexivity. }
  destruct Hn as [k Hn]. rewrite Hn. cbn [read_header_fuel].
  rewrite readline_line.
  - rewrite match_header_garbage by assumption. reflexivity.
  - apply Forall_app. split; [exact Hg|]. destruct v; repeat constructor; discriminate.
Qed.
(** a version the enumeration does not have is refused *)
Theorem C49_unknown_minor_refused : forall b rest, b = 56 \/ b = 57 ->
  read_header (str "%PDF-1." ++ b :: 10 :: rest) = Throw ENotSupported.
Proof. intros b rest [-> | ->]; unfold read_header; cbn; reflexivity. Qed.
Example C49_case : Forall garbage_line [(str "junk %PDF-1.9", [13]); ([], [10]); (str "%PDF-1.x", [13; 10]); (str "%PDF-3.0", [10])] /\
  read_header (lines_text [(str "junk %PDF-1.9", [13]); ([], [10]); (str "%PDF-1.x", [13; 10]); (str "%PDF-3.0", [10])] ++
               write_header PDF16) = Ok PDF16.
Proof.
  split; [|vm_compute; reflexivity]. repeat (apply Forall_cons || apply Forall_nil).
  all: repeat split; cbn; try tauto; try (repeat constructor; discriminate).
  all: intros (a & b & m & Ha & Hb & E); try discriminate E.
  - injection E as <- <- <-. clear Ha. repeat (destruct Hb as [Hb|Hb]; [discriminate Hb|]). exact Hb.
  - injection E as <- <- <-. destruct Ha as [Ha|[Ha|Ha]]; [discriminate Ha|discriminate Ha|exact Ha].
Qed.

Print Assumptions C20_startxref_found.
Print Assumptions C20_last_revision_found.
Print Assumptions C20_needs_line_end.
Print Assumptions C49_header_roundtrip_partial.
Print Assumptions C49_same_line_refuted.
Print Assumptions C49_unknown_minor_refused.

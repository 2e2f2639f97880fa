(** C38: dates. *)
From Coq Require Import List NArith ZArith Bool Lia String.
From Coq Require Import List.
From Verif.Model Require Import Base Date.
From Verif.Spec Require Import Date.
From Verif.Proof Require Import Tac Date.
Import ListNotations.
Local Open Scope N_scope.

(** A text is accepted as a date exactly when it has the form of a date string and every field is in its range; the fields are
    those that the text shows.  Any other text is refused. *)
Theorem C38_accepts_exactly : forall text,
  (forall d, parse_date text = Ok d <-> date_text text d /\ in_ranges d) /\
  ((forall d, date_text text d -> ~ in_ranges d) -> parse_date text = Throw EGeneral).
Proof.
  intros text. split.
  - intros d. split; [apply parse_sound|intros (H1 & H2); now apply parse_complete].
  - intros H. destruct (parse_total text) as [E|(d & E)]; [exact E|]. destruct (parse_sound _ _ E) as (Ht & Hr). destruct (H d Ht Hr).
Qed.

(** The text made of the time that a clock shows is read back as that time. *)
Theorem C38_roundtrip : forall d, clock_date d ->
  exists text, format_date d = Ok text /\ parse_date text = Ok d.
Proof.
  intros d Hd. destruct (format_text d Hd) as (text & E & Ht). exists text. split; [exact E|]. apply parse_complete; [exact Ht|apply Hd].
Qed.

(** The text of a date has one meaning. *)
Theorem C38_one_meaning : forall text d d', date_text text d -> date_text text d' -> in_ranges d -> d = d'.
Proof.
  intros text d d' H H' Hr. pose proof (parse_complete _ _ H Hr) as E. rewrite parse_scan in E.
  assert (Hx : forall d'', date_text text d'' -> exists y l sg h m, scan (strip_bom text) = Some (y, l, (sg, h, m)) /\ built y l sg h m = d'').
  { clear. intros d (bom & hd & y1 & y2 & y3 & y4 & t & vs & -> & Hb & Hh & H1 & H2 & H3 & H4 & Hf & Hy & Hmo & Hda & Hho & Hmi & Hse).
    assert (Es : strip_header (strip_bom (bom ++ hd ++ [y1; y2; y3; y4] ++ t)) = y1 :: y2 :: y3 :: y4 :: t).
    { assert (E1 : strip_bom (bom ++ hd ++ [y1; y2; y3; y4] ++ t) = hd ++ [y1; y2; y3; y4] ++ t).
      { destruct Hb as [-> | ->]; [|reflexivity]. cbn [app]. destruct Hh as [-> | ->]; cbn [app]; apply strip_bom_no; [unfold dec_digit in H1; lia|discriminate]. }
      rewrite E1. destruct Hh as [-> | ->]; [|reflexivity]. cbn [app]. unfold strip_header. rewrite (proj2 (N.eqb_neq 68 y1)); [reflexivity|]. unfold dec_digit in H1. lia. }
    unfold scan. rewrite Es. rewrite (dig_and y1 y2 H1 H2), (dig_and y3 y4 H3 H4). cbn [andb].
    destruct (fields_complete _ _ _ _ _ _ Hf) as (l & r & sg & hs & ms & El & Et & Hv & Hz & Hho' & Hmi'). rewrite El, Et.
    exists [y1; y2; y3; y4], l, sg, hs, ms. split; [reflexivity|].
    destruct d as [dy dmo dda dho dmi dse dz dh dm]. cbn [year month day hour minute second zone hour_offset minute_offset] in *.
    unfold built. cbn [val_or]. rewrite digits_four. rewrite <- !Hv. rewrite Hz. subst. reflexivity. }
  destruct (Hx d H) as (y & l & sg & h & m & Es & <-). destruct (Hx d' H') as (y' & l' & sg' & h' & m' & Es' & <-). congruence.
Qed.

(** "Calendar ranges" is weaker than it sounds: the 30th of February is accepted. *)
Theorem C38_calendar_refuted : exists text d, parse_date text = Ok d /\ ~ calendar_day d.
Proof.
  exists (str "D:20230230"), {| year := 2023; month := 2; day := 30; hour := 0; minute := 0; second := 0; zone := TUtc; hour_offset := 0; minute_offset := 0 |}.
  split; [vm_compute; reflexivity|]. unfold calendar_day. cbn. lia.
Qed.

(** The time zone Z with an offset is accepted, and writing that date loses the offset; years past 9999 are written and refused. *)
Theorem C38_roundtrip_refuted :
  (exists text d text', parse_date text = Ok d /\ format_date d = Ok text' /\ parse_date text' <> Ok d) /\
  (exists d text, in_ranges d /\ (10000 <= year d)%Z /\ format_date d = Ok text /\ parse_date text = Throw EGeneral).
Proof.
  split.
  - exists (str "D:20230101000000Z05'30'"), {| year := 2023; month := 1; day := 1; hour := 0; minute := 0; second := 0; zone := TUtc; hour_offset := 5; minute_offset := 30 |},
      (str "D:20230101000000Z").
    split; [vm_compute; reflexivity|]. split; [vm_compute; reflexivity|]. vm_compute. discriminate.
  - exists {| year := 10000; month := 1; day := 1; hour := 0; minute := 0; second := 0; zone := TUtc; hour_offset := 0; minute_offset := 0 |}, (str "D:100000101000000Z").
    split; [unfold in_ranges; cbn; lia|]. split; [cbn; lia|]. split; [vm_compute; reflexivity|]. vm_compute. reflexivity.
Qed.

Example C38_case :
  let d := {| year := 1998; month := 12; day := 23; hour := 19; minute := 52; second := 0; zone := TEarlier; hour_offset := 8; minute_offset := 0 |} in
  clock_date d /\ format_date d = Ok (str "D:19981223195200-08'00'") /\ parse_date (str "D:19981223195200-08'00'") = Ok d /\
  parse_date (str "D:199812231952-08'00'") = Throw EGeneral /\ parse_date (str "D:19981323") = Throw EGeneral /\
  parse_date (str "1998") = Ok {| year := 1998; month := 1; day := 1; hour := 0; minute := 0; second := 0; zone := TUtc; hour_offset := 0; minute_offset := 0 |}.
Proof.
  cbv zeta. split; [|repeat split; vm_compute; reflexivity]. unfold clock_date, in_ranges. cbn. repeat split; try lia; discriminate.
Qed.

Print Assumptions C38_accepts_exactly.
Print Assumptions C38_roundtrip.
Print Assumptions C38_one_meaning.
Print Assumptions C38_calendar_refuted.
Print Assumptions C38_roundtrip_refuted.

(** Date strings as in ISO 32000-1, 7.9.4, with what the library accepts in addition. *)
From Coq Require Import List NArith ZArith Bool.
From Verif.Model Require Import Base Date.
Import ListNotations.
Local Open Scope N_scope.

Definition dec_digit (c : N) : Prop := 48 <= c <= 57.
Definition digit_val (c : N) : Z := (Z.of_N c - 48)%Z.
Definition pair_val (a b : N) : Z := (10 * digit_val a + digit_val b)%Z.

(** What follows the seconds: nothing, or a sign with nothing, hours, or hours and minutes; an apostrophe may follow the hours
    and the minutes. *)
Inductive offset_text : bytes -> timezone -> Z -> Z -> Prop :=
| off_none : offset_text [] TUtc 0 0
| off_some : forall sign tz rest h m, sign_of sign tz -> offset_rest rest h m -> offset_text (sign :: rest) tz h m
with sign_of : N -> timezone -> Prop :=
| sign_z : sign_of 90 TUtc
| sign_plus : sign_of 43 TLater
| sign_minus : sign_of 45 TEarlier
with offset_rest : bytes -> Z -> Z -> Prop :=
| rest_none : offset_rest [] 0 0
| rest_hours : forall a b q, dec_digit a -> dec_digit b -> q = [] \/ q = [39] -> offset_rest (a :: b :: q) (pair_val a b) 0
| rest_both : forall a b q c d r, dec_digit a -> dec_digit b -> dec_digit c -> dec_digit d -> q = [] \/ q = [39] -> r = [] \/ r = [39] ->
    offset_rest (a :: b :: q ++ c :: d :: r) (pair_val a b) (pair_val c d).

(** The two-digit fields after the year: the text may end before any of them, or with a single digit. *)
Inductive fields_text : nat -> bytes -> list Z -> timezone -> Z -> Z -> Prop :=
| fields_done : forall t tz h m, offset_text t tz h m -> fields_text 0 t [] tz h m
| fields_end : forall k, fields_text (S k) [] [] TUtc 0 0
| fields_one : forall k a, dec_digit a -> fields_text (S k) [a] [digit_val a] TUtc 0 0
| fields_two : forall k a b t vs tz h m, dec_digit a -> dec_digit b -> fields_text k t vs tz h m ->
    fields_text (S k) (a :: b :: t) (pair_val a b :: vs) tz h m.

(** A text and the date it stands for; a byte order mark and the two characters D: may come first. *)
Definition date_text (text : bytes) (d : date) : Prop :=
  exists bom header y1 y2 y3 y4 rest vs,
    text = bom ++ header ++ [y1; y2; y3; y4] ++ rest /\ (bom = [] \/ bom = [0xEF; 0xBB; 0xBF]) /\ (header = [] \/ header = [68; 58]) /\
    dec_digit y1 /\ dec_digit y2 /\ dec_digit y3 /\ dec_digit y4 /\
    fields_text 5 rest vs (zone d) (hour_offset d) (minute_offset d) /\
    year d = (100 * pair_val y1 y2 + pair_val y3 y4)%Z /\
    month d = nth 0 vs 1%Z /\ day d = nth 1 vs 1%Z /\ hour d = nth 2 vs 0%Z /\ minute d = nth 3 vs 0%Z /\ second d = nth 4 vs 0%Z.

(** Every field in its range. *)
Definition in_ranges (d : date) : Prop :=
  (1 <= month d <= 12 /\ 1 <= day d <= 31 /\ 0 <= hour d <= 23 /\ 0 <= minute d <= 59 /\ 0 <= second d <= 59 /\
   0 <= hour_offset d <= 23 /\ 0 <= minute_offset d <= 59)%Z.

(** A date that a clock shows: four-digit year, known zone, no offset in UTC. *)
Definition clock_date (d : date) : Prop :=
  in_ranges d /\ (0 <= year d <= 9999)%Z /\ zone d <> TUndefined /\ (zone d = TUtc -> hour_offset d = 0%Z /\ minute_offset d = 0%Z).

(** A day that the calendar has. *)
Definition days_in_month (y m : Z) : Z :=
  (if m =? 2 then (if (y mod 4 =? 0) && (negb (y mod 100 =? 0) || (y mod 400 =? 0)) then 29 else 28)
   else if (m =? 4) || (m =? 6) || (m =? 9) || (m =? 11) then 30 else 31)%Z.
Definition calendar_day (d : date) : Prop := (1 <= day d <= days_in_month (year d) (month d))%Z.

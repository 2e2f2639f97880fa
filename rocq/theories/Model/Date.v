(** Dates: semantics/objects/date.cpp and utils/time_utils.h. *)
From Coq Require Import List NArith ZArith Bool String.
From Coq Require Import List.
From Verif.Model Require Import Base.
Import ListNotations.
Local Open Scope N_scope.

(** utils/time_utils.h:12-17; [Undefined] is also a value of the type *)
Inductive timezone : Set := TUndefined | TUtc | TLater | TEarlier.

(** Date, date.h:12-61 and TimeInfo, time_utils.h:19-52 *)
Record date : Set := {
  year : Z; month : Z; day : Z; hour : Z; minute : Z; second : Z;
  zone : timezone; hour_offset : Z; minute_offset : Z
}.

(** std::regex in its default grammar, as far as it is used: alternatives are tried from left to right, [ROpt] is greedy.  [REnd] is
    the assertion [$].  What matches is the list of all ways in the order they are tried: the rest of the text and the captured
    groups. *)
Inductive regex : Type :=
| RClass (f : N -> bool)
| REnd
| RSeq (a b : regex)
| RAlt (a b : regex)
| ROpt (a : regex)
| RGroup (n : nat) (a : regex).

Definition captures := list (nat * bytes).

Fixpoint ways (r : regex) (s : bytes) (caps : captures) : list (bytes * captures) :=
  match r with
  | RClass f => match s with [] => [] | c :: t => if f c then [(t, caps)] else [] end
  | REnd => match s with [] => [([], caps)] | _ => [] end
  | RSeq a b => flat_map (fun '(t, c) => ways b t c) (ways a s caps)
  | RAlt a b => ways a s caps ++ ways b s caps
  | ROpt a => ways a s caps ++ [(s, caps)]
  | RGroup n a => map (fun '(t, c) => (t, (n, firstn (List.length s - List.length t) s) :: c)) (ways a s caps)
  end.

(** std::regex_match: the first way that uses up the whole text *)
Definition regex_match (r : regex) (s : bytes) : option captures :=
  match filter (fun '(t, _) => match t with [] => true | _ => false end) (ways r s []) with
  | [] => None
  | (_, caps) :: _ => Some caps
  end.

Definition is_char (c : N) : regex := RClass (N.eqb c).
(** \d in the classic locale *)
Definition digit_re : regex := RClass (fun c => (48 <=? c) && (c <=? 57)).
Definition two_digits : regex := RSeq digit_re digit_re.
(** the groups for month to second: (\d$|\d{2}|$) *)
Definition field_re (n : nat) : regex := RGroup n (RAlt (RSeq digit_re REnd) (RAlt two_digits REnd)).
(** (\d{2}|$) *)
Definition offset_re (n : nat) : regex := RGroup n (RAlt two_digits REnd).
Definition sign_re : regex := RClass (fun c => (c =? 90) || (c =? 43) || (c =? 45)).
Definition apostrophe_re : regex := ROpt (is_char 39).

(** header_regex, date.cpp:27-43 *)
Definition date_re : regex :=
  RSeq (ROpt (RSeq (is_char 68) (is_char 58)))
  (RSeq (RGroup 1 (RSeq two_digits two_digits))
  (RSeq (field_re 2) (RSeq (field_re 3) (RSeq (field_re 4) (RSeq (field_re 5) (RSeq (field_re 6)
  (RSeq (RGroup 7 (RAlt sign_re REnd))
  (RSeq (offset_re 8)
  (RSeq apostrophe_re
  (RSeq (offset_re 9)
  (RSeq apostrophe_re REnd))))))))))).

(** sub-match [n] *)
Definition group (n : nat) (caps : captures) : option bytes :=
  match find (fun '(k, _) => Nat.eqb k n) caps with Some (_, s) => Some s | None => None end.

(** std::stoi of at most four digits *)
Definition digits_value (s : bytes) : Z := fold_left (fun acc c => (10 * acc + (Z.of_N c - 48))%Z) s 0%Z.

(** [if (sm[n].matched && sm[n].str().size() > 0) field = std::stoi(sm[n])], date.cpp:52-59 *)
Definition take (n : nat) (caps : captures) (default : Z) : Z :=
  match group n caps with
  | Some (c :: s) => digits_value (c :: s)
  | _ => default
  end.

(** the constructor from a string, date.cpp:14-82; the defaults are those of date.h:50-58 *)
Definition strip_bom (s : bytes) : bytes :=
  match s with
  | a :: b :: c :: t => if (a =? 0xEF) && (b =? 0xBB) && (c =? 0xBF) then t else s
  | _ => s
  end.

Definition parse_date (text : bytes) : res date :=
  match regex_match date_re (strip_bom text) with
  | None => Throw EGeneral
  | Some sm =>
      do tz <- (match group 7 sm with
                | Some s => if beq s (str "Z") || beq s [] then Ok TUtc
                            else if beq s (str "+") then Ok TLater
                            else if beq s (str "-") then Ok TEarlier
                            else Throw EGeneral
                | None => Ok TUtc
                end);;
      let d := {| year := take 1 sm 1900; month := take 2 sm 1; day := take 3 sm 1; hour := take 4 sm 0; minute := take 5 sm 0;
                  second := take 6 sm 0; zone := tz; hour_offset := take 8 sm 0; minute_offset := take 9 sm 0 |} in
      if (month d <? 1)%Z || (12 <? month d)%Z then Throw EGeneral
      else if (day d <? 1)%Z || (31 <? day d)%Z then Throw EGeneral
      else if (hour d <? 0)%Z || (23 <? hour d)%Z then Throw EGeneral
      else if (minute d <? 0)%Z || (59 <? minute d)%Z then Throw EGeneral
      else if (second d <? 0)%Z || (59 <? second d)%Z then Throw EGeneral
      else if (hour_offset d <? 0)%Z || (23 <? hour_offset d)%Z then Throw EGeneral
      else if (minute_offset d <? 0)%Z || (59 <? minute_offset d)%Z then Throw EGeneral
      else Ok d
  end.

(** std::setw(width) << std::setfill('0') << value for a value that is not negative (the fields of gmtime) *)
Fixpoint decimal (fuel : nat) (n : N) : bytes :=
  match fuel with
  | O => []
  | S f => if n <? 10 then [48 + n] else decimal f (n / 10) ++ [48 + n mod 10]
  end.
Definition padded_number (width : nat) (z : Z) : bytes :=
  let s := decimal 11 (Z.to_N z) in repeat 48 (width - List.length s) ++ s.

(** the text that GetCurrentDate makes of a time, date.cpp:84-118 *)
Definition format_date (d : date) : res bytes :=
  let start := str "D:" ++ padded_number 4 (year d) ++ padded_number 2 (month d) ++ padded_number 2 (day d)
               ++ padded_number 2 (hour d) ++ padded_number 2 (minute d) ++ padded_number 2 (second d) in
  let offset := padded_number 2 (hour_offset d) ++ [39] ++ padded_number 2 (minute_offset d) ++ [39] in
  match zone d with
  | TUtc => Ok (start ++ str "Z")
  | TEarlier => Ok (start ++ str "-" ++ offset)
  | TLater => Ok (start ++ str "+" ++ offset)
  | TUndefined => Throw EGeneral
  end.

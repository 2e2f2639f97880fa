(** utils/character.h – character classes of PDF syntax, on [int] arguments that are byte values (never EOF here). *)
From Coq Require Import List NArith ZArith Bool.
From Verif.Model Require Import Base.
Import ListNotations.
Local Open Scope N_scope.

(** utils/character.h:28-40 *)
Definition is_white (c : N) : bool :=
  (c =? 0) || (c =? 9) || (c =? 10) || (c =? 12) || (c =? 13) || (c =? 32).

(** utils/character.h:42-58: ( ) < > [ ] { } / % *)
Definition is_delim (c : N) : bool :=
  (c =? 40) || (c =? 41) || (c =? 60) || (c =? 62) || (c =? 91) || (c =? 93) ||
  (c =? 123) || (c =? 125) || (c =? 47) || (c =? 37).

(** utils/character.h:72-74, for an [int] that came from Peek/Get (so 255 is not EOF) *)
Definition is_regular (c : N) : bool := negb (is_white c) && negb (is_delim c).

(** utils/character.h:72-74, for a [char] promoted to [int]: byte 255 becomes -1 = EOF and is not regular *)
Definition is_regular_char (c : N) : bool := is_regular c && negb (schar c =? -1)%Z.

(** utils/character.h:64-66 *)
Definition is_numeric (c : N) : bool := (48 <=? c) && (c <=? 57).

(** utils/character.h:68-70 *)
Definition is_alpha (c : N) : bool := ((97 <=? c) && (c <=? 122)) || ((65 <=? c) && (c <=? 90)).

(** C library isspace in the "C" locale, used by strtol inside std::stoi *)
Definition is_cspace (c : N) : bool := ((9 <=? c) && (c <=? 13)) || (c =? 32).

(** C library isprint in the "C" locale *)
Definition is_print (c : N) : bool := (32 <=? c) && (c <=? 126).

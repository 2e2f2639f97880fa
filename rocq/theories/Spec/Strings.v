(** What texts denote in PDF, independent of the library (ISO 32000-1, 7.2.2, 7.3.4, 7.3.5). *)
From Coq Require Import List NArith Bool.
Import ListNotations.
Local Open Scope N_scope.

(** Table 1 and Table 2 of ISO 32000-1: white-space and delimiter characters *)
Definition pdf_white : list N := [0; 9; 10; 12; 13; 32].
Definition pdf_delimiters : list N := [40; 41; 60; 62; 91; 93; 123; 125; 47; 37].
Definition pdf_regular (c : N) : Prop := ~ In c pdf_white /\ ~ In c pdf_delimiters.

(** a token that starts before [rest] ends there: nothing follows, or a white-space or delimiter character *)
Definition token_ends (rest : list N) : Prop :=
  match rest with [] => True | c :: _ => In c pdf_white \/ In c pdf_delimiters end.

(** hexadecimal digits, either case *)
Inductive hex_digit : N -> N -> Prop :=
| hd_dec : forall v, v < 10 -> hex_digit (48 + v) v
| hd_upper : forall v, 10 <= v < 16 -> hex_digit (55 + v) v
| hd_lower : forall v, 10 <= v < 16 -> hex_digit (87 + v) v.

(** 7.3.5: the text after the slash [txt] denotes the name [n] *)
Inductive name_text : list N -> list N -> Prop :=
| nt_nil : name_text [] []
| nt_plain : forall c txt n, c < 256 -> pdf_regular c -> c <> 35 -> name_text txt n -> name_text (c :: txt) (c :: n)
| nt_hex : forall h l x y txt n, hex_digit h x -> hex_digit l y -> name_text txt n ->
    name_text (35 :: h :: l :: txt) (16 * x + y :: n).

(** 7.3.4.3: the text between the angle brackets denotes the string [v]; white space is ignored, a missing last digit is 0 *)
Inductive hex_text : list N -> list N -> Prop :=
| ht_nil : hex_text [] []
| ht_white : forall c txt v, In c pdf_white -> hex_text txt v -> hex_text (c :: txt) v
| ht_pair : forall h ws l x y txt v, hex_digit h x -> Forall (fun c => In c pdf_white) ws -> hex_digit l y ->
    hex_text txt v -> hex_text (h :: ws ++ l :: txt) (16 * x + y :: v)
| ht_odd : forall h ws x, hex_digit h x -> Forall (fun c => In c pdf_white) ws -> hex_text (h :: ws) [16 * x].

(** 7.3.4.2, Table 3: escape sequences of one character after the backslash *)
Definition escape_table : list (N * N) :=
  [(110, 10); (114, 13); (116, 9); (98, 8); (102, 12); (40, 40); (41, 41); (92, 92)].
Definition octal_digit (c v : N) : Prop := c = 48 + v /\ v < 8.
Definition not_digit_first (txt : list N) : Prop :=
  match txt with [] => True | c :: _ => ~ (48 <= c <= 57) end.

(** 7.3.4.2: the text between the outer parentheses denotes the string [v], at parenthesis depth [n].
    Raw end-of-line characters other than LF are left out (they are normalised by the standard), and so is octal overflow. *)
Inductive literal_text : nat -> list N -> list N -> Prop :=
| lt_nil : literal_text 0 [] []
| lt_plain : forall n c txt v, c < 256 -> c <> 40 -> c <> 41 -> c <> 92 -> c <> 13 ->
    literal_text n txt v -> literal_text n (c :: txt) (c :: v)
| lt_open : forall n txt v, literal_text (S n) txt v -> literal_text n (40 :: txt) (40 :: v)
| lt_close : forall n txt v, literal_text n txt v -> literal_text (S n) (41 :: txt) (41 :: v)
| lt_escape : forall n e b txt v, In (e, b) escape_table -> literal_text n txt v -> literal_text n (92 :: e :: txt) (b :: v)
| lt_octal3 : forall n a b c x y z txt v, octal_digit a x -> octal_digit b y -> octal_digit c z -> 64 * x + 8 * y + z < 256 ->
    literal_text n txt v -> literal_text n (92 :: a :: b :: c :: txt) (64 * x + 8 * y + z :: v)
| lt_octal2 : forall n a b x y txt v, octal_digit a x -> octal_digit b y -> not_digit_first txt ->
    literal_text n txt v -> literal_text n (92 :: a :: b :: txt) (8 * x + y :: v)
| lt_octal1 : forall n a x txt v, octal_digit a x -> not_digit_first txt ->
    literal_text n txt v -> literal_text n (92 :: a :: txt) (x :: v)
| lt_continue_lf : forall n txt v, literal_text n txt v -> literal_text n (92 :: 10 :: txt) v
| lt_continue_crlf : forall n txt v, literal_text n txt v -> literal_text n (92 :: 13 :: 10 :: txt) v
| lt_continue_cr : forall n txt v, (match txt with 10 :: _ => False | _ => True end) ->
    literal_text n txt v -> literal_text n (92 :: 13 :: txt) v
| lt_unknown : forall n c txt v, c < 256 -> ~ In c (map fst escape_table) -> ~ (48 <= c <= 57) -> c <> 10 -> c <> 13 ->
    literal_text n txt v -> literal_text n (92 :: c :: txt) (c :: v).

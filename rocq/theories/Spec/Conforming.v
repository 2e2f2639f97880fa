(** Files with cross-reference tables, as ISO 32000-1 describes them in 7.5: which texts are such files, and what they mean.
    Nothing here refers to the way the library writes its files. *)
From Coq Require Import List NArith ZArith Bool String.
From Coq Require Import List.
From Verif.Model Require Import Base Object Header.
From Verif.Spec Require Import Strings Grammar.
Import ListNotations.
Local Open Scope N_scope.

(** 7.2.3: the ends of a line *)
Definition line_end (e : list N) : Prop := In e [[10]; [13]; [13; 10]].
(** a number without sign *)
Definition number_text (ds : list N) (n : N) : Prop := ds <> [] /\ Forall decimal_digit ds /\ decimal_value ds = n.

(** 7.5.4: a row of a table is 20 bytes long: ten digits, a space, five digits, a space, the letter and a line end of two characters *)
Inductive row : Set :=
| InUse (offset generation : N)
| Free (generation : N).
Definition row_text (txt : list N) (r : row) : Prop :=
  exists d10 d5 letter e a g,
    txt = d10 ++ [32] ++ d5 ++ [32] ++ [letter] ++ e /\
    List.length d10 = 10%nat /\ number_text d10 a /\ List.length d5 = 5%nat /\ number_text d5 g /\ g <= 65535 /\
    In e [[32; 13]; [32; 10]; [13; 10]] /\
    match r with
    | InUse offset generation => letter = 110 /\ a = offset /\ g = generation
    | Free generation => letter = 102 /\ g = generation
    end.

(** 7.5.4: a subsection is a line with the number of the first object and the number of rows, and the rows *)
Inductive subsection_text : list N -> list (N * row) -> Prop :=
| sub : forall first_ds first count_ds e texts rows,
    number_text first_ds first -> number_text count_ds (N.of_nat (List.length rows)) -> line_end e -> Forall2 row_text texts rows ->
    first + N.of_nat (List.length rows) <= 2 ^ 63 ->
    subsection_text (first_ds ++ [32] ++ count_ds ++ e ++ concat texts)
      (combine (map (fun i => first + N.of_nat i) (seq 0 (List.length rows))) rows).

(** 7.5.4, 7.5.5: a section with its trailer.  No number is listed twice. *)
Record revision : Type := { r_rows : list (N * row); r_trailer : list (list N * obj) }.
Inductive section_text : list N -> revision -> Prop :=
| sec : forall e subs lists g dict m,
    line_end e -> Forall2 subsection_text subs lists -> NoDup (map fst (concat lists)) ->
    gap g -> object_text dict (ODict m) ->
    section_text (str "xref" ++ e ++ concat subs ++ str "trailer" ++ g ++ dict) {| r_rows := concat lists; r_trailer := m |}.

(** [text] stands at [offset], and [rest] behind it *)
Definition stands_at (file : list N) (offset : N) (text rest : list N) : Prop :=
  exists before, file = before ++ text ++ rest /\ N.of_nat (List.length before) = offset.

(** 7.5.6: the sections of a file, the newest first; each but the oldest one gives the place of the one before it.  Behind the trailer
    comes "startxref". *)
Inductive revisions (file : list N) : N -> list revision -> Prop :=
| rev_oldest : forall offset text r g more,
    stands_at file offset text (g ++ str "startxref" ++ more) -> section_text text r -> gap g -> token_ends more ->
    (forall v, ~ In (str "Prev", v) (r_trailer r)) -> (forall v, ~ In (str "XRefStm", v) (r_trailer r)) ->
    revisions file offset [r]
| rev_newer : forall offset text r g more prev older,
    stands_at file offset text (g ++ str "startxref" ++ more) -> section_text text r -> gap g -> token_ends more ->
    In (str "Prev", OInt (Z.of_N prev)) (r_trailer r) -> (forall v, ~ In (str "XRefStm", v) (r_trailer r)) ->
    revisions file prev older -> revisions file offset (r :: older).

(** 7.5.2: the versions *)
Definition version_digits (v : version) : list N :=
  str match v with
      | PDF10 => "1.0" | PDF11 => "1.1" | PDF12 => "1.2" | PDF13 => "1.3" | PDF14 => "1.4" | PDF15 => "1.5" | PDF16 => "1.6" | PDF17 => "1.7" | PDF20 => "2.0"
      end.
(** 7.5.2, 7.5.5: a file begins with the version and ends with the place of the newest section.  The three last lines are not longer
    than 16 kilobytes. *)
Definition conforming (file : list N) (v : version) (revs : list revision) : Prop :=
  exists offset,
    revisions file offset revs /\
    (exists e rest, line_end e /\ file = str "%PDF-" ++ version_digits v ++ e ++ rest) /\
    (exists before white e1 ds e2 e3, In white pdf_white /\ line_end e1 /\ number_text ds offset /\ line_end e2 /\
       Forall (fun c => In c pdf_white) e3 /\ file = before ++ [white] ++ str "startxref" ++ e1 ++ ds ++ e2 ++ str "%%EOF" ++ e3 /\
       N.of_nat (List.length ds + List.length e3) <= 16000) /\
    N.of_nat (List.length file) < 2 ^ 63.

(** ** What the file means *)
(** the newest section that lists a number, and the sections that are older *)
Definition current (revs : list revision) (n : N) (r : row) (older : list revision) : Prop :=
  exists newer s, revs = newer ++ s :: older /\ In (n, r) (r_rows s) /\ forall x r', In x newer -> ~ In (n, r') (r_rows x).
Definition not_listed (revs : list revision) (n : N) : Prop := forall x r, In x revs -> ~ In (n, r) (r_rows x).

(** 7.3.10: an object with its heading, at a place in the file *)
Definition object_at (body : list N -> obj -> Prop) (file : list N) (offset n g : N) (o : obj) : Prop :=
  exists dn g1 dg g2 g3 txt g4 rest,
    stands_at file offset (dn ++ g1 ++ dg ++ g2 ++ str "obj" ++ g3 ++ txt ++ g4 ++ str "endobj") rest /\
    number_text dn n /\ number_text dg g /\ gap g1 /\ g1 <> [] /\ gap g2 /\ g2 <> [] /\ gap g3 /\ gap g4 /\
    token_ends (g3 ++ txt) /\ body txt o /\ (self_delimited o = false -> g4 <> []) /\ token_ends rest.

(** an integer that is an object of its own, as the length of a stream may be *)
Definition integer_object (file : list N) (revs : list revision) (n g : N) (z : Z) : Prop :=
  exists offset older, current revs n (InUse offset g) older /\ object_at object_text file offset n g (OInt z).
(** an object of the file: a direct one, or a stream whose length stands in its dictionary or is an object of the file *)
Definition body_of (file : list N) (revs : list revision) (txt : list N) (o : obj) : Prop :=
  object_text txt o \/
  exists len, (forall n g z, len n g = Some z -> integer_object file revs n g z) /\ stream_text len txt o.

(** 7.3.10, 7.5.4: the object that a reference stands for.  It is the one at the offset that the newest section that lists the number
    gives, when the generation is that of the reference; otherwise the reference stands for null. *)
Inductive stands_for (file : list N) (revs : list revision) (n g : N) : obj -> Prop :=
| sf_object : forall offset older o, current revs n (InUse offset g) older -> object_at (body_of file revs) file offset n g o ->
    stands_for file revs n g o
| sf_other : forall offset g' older, current revs n (InUse offset g') older -> g' <> g -> stands_for file revs n g ONull
| sf_free : forall g' older, current revs n (Free g') older -> stands_for file revs n g ONull
| sf_unknown : not_listed revs n -> stands_for file revs n g ONull.

(** every section that is newer than one that lists the number in use with this generation, and lists the number too, lists it with the
    same generation: the number was not given to another object since *)
Definition generation (r : row) : N := match r with InUse _ g => g | Free g => g end.
Definition not_superseded (revs : list revision) (n g : N) : Prop :=
  forall newer s older offset, revs = newer ++ s :: older -> In (n, InUse offset g) (r_rows s) ->
    forall x r, In x newer -> In (n, r) (r_rows x) -> generation r = g.

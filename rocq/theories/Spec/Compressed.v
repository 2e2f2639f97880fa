(** Files with cross-reference tables, cross-reference streams and object streams, as ISO 32000-1 describes them in 7.5: which texts are
    such files, and what they mean.  Nothing here refers to the way the library writes its files.  Hybrid files (7.5.8.4) are left out. *)
From Coq Require Import List NArith ZArith Bool String.
From Coq Require Import List.
From Verif.Model Require Import Base Object Header.
From Verif.Spec Require Import Strings Grammar Conforming.
Import ListNotations.
Local Open Scope N_scope.

(** 7.5.8.3: a field is a number, the high byte first *)
Definition big_endian (bs : list N) : N := fold_left (fun a b => a * 256 + b) bs 0.
(** the rows of a section: those of a table, the objects that are in an object stream, and rows of types the standard keeps for later *)
Inductive entry_row : Set :=
| AtOffset (offset generation : N)
| Deleted (generation : N)
| Packed (stream index : N)
| Reserved (type : N).
(** Table 18: three fields.  A missing first field means type 1. *)
Definition row_type (f1 : list N) : N := match f1 with [] => 1 | _ => big_endian f1 end.
Definition row_data (w1 w2 w3 : nat) (data : list N) (r : entry_row) : Prop :=
  exists f1 f2 f3,
    data = f1 ++ f2 ++ f3 /\ List.length f1 = w1 /\ List.length f2 = w2 /\ List.length f3 = w3 /\ all_bytes data /\
    row_type f1 < 2 ^ 63 /\ big_endian f2 < 2 ^ 63 /\ big_endian f3 < 2 ^ 63 /\
    match r with
    | Deleted generation => row_type f1 = 0 /\ big_endian f3 = generation /\ generation <= 65535
    | AtOffset offset generation => row_type f1 = 1 /\ big_endian f2 = offset /\ big_endian f3 = generation /\ generation <= 65535
    | Packed stream index => row_type f1 = 2 /\ big_endian f2 = stream /\ big_endian f3 = index
    | Reserved type => row_type f1 = type /\ 2 < type
    end.

(** 7.5.8.2, Index: pairs of the number of the first object and the number of rows; the data is the rows of all of them *)
Inductive subsections_data (w1 w2 w3 : nat) : list obj -> list N -> list (N * entry_row) -> Prop :=
| sd_nil : subsections_data w1 w2 w3 [] [] []
| sd_cons : forall first texts rows index data l,
    Forall2 (row_data w1 w2 w3) texts rows -> first + N.of_nat (List.length rows) <= 2 ^ 63 -> N.of_nat (List.length rows) < 2 ^ 31 ->
    subsections_data w1 w2 w3 index data l ->
    subsections_data w1 w2 w3 (OInt (Z.of_N first) :: OInt (Z.of_nat (List.length rows)) :: index) (concat texts ++ data)
      (combine (map (fun i => first + N.of_nat i) (seq 0 (List.length rows))) rows ++ l).

(** a section: its rows, its trailer (for a stream: its dictionary), and for a stream the number and generation of the stream *)
Record revision : Type := { v_rows : list (N * entry_row); v_trailer : list (list N * obj); v_self : option (N * N) }.

Section File.
(** the data of a stream with these filters, decoded *)
Variable decode : list (list N * obj) -> list N -> res (list N).
Variable file : list N.
(** whether the row of a cross-reference stream for itself has to be right; a reader that found the stream does not need it *)
Variable strict : bool.

Definition table_row (r : row) : entry_row := match r with InUse o g => AtOffset o g | Free g => Deleted g end.
(** 7.5.4, 7.5.8: a section at a place of the file.  A cross-reference stream lists itself, and its own length is a direct object. *)
Inductive section_at (offset : N) : revision -> Prop :=
| sa_table : forall text r g more,
    stands_at file offset text (g ++ str "startxref" ++ more) -> section_text text r -> gap g -> token_ends more ->
    (forall v, ~ In (str "XRefStm", v) (r_trailer r)) ->
    section_at offset {| v_rows := map (fun p => (fst p, table_row (snd p))) (r_rows r); v_trailer := r_trailer r; v_self := None |}
| sa_stream : forall n g m data body w1 w2 w3 size index rows own,
    object_at (stream_text (fun _ _ => None)) file offset n g (OStream m data) -> n < 2 ^ 63 -> g <= 65535 -> decode m data = Ok body ->
    In (str "W", OArr [OInt (Z.of_nat w1); OInt (Z.of_nat w2); OInt (Z.of_nat w3)]) m ->
    In (str "Size", OInt size) m ->
    (In (str "Index", OArr index) m \/ (forall v, ~ In (str "Index", v) m) /\ index = [OInt 0; OInt size]) ->
    subsections_data w1 w2 w3 index body rows -> NoDup (map fst rows) -> In (n, AtOffset own g) rows -> (strict = true -> own = offset) ->
    section_at offset {| v_rows := rows; v_trailer := m; v_self := Some (n, g) |}.

(** 7.5.6: the sections of the file, the newest first *)
Inductive history : N -> list revision -> Prop :=
| hi_oldest : forall offset r, section_at offset r -> (forall v, ~ In (str "Prev", v) (v_trailer r)) -> history offset [r]
| hi_newer : forall offset r prev older, section_at offset r -> In (str "Prev", OInt (Z.of_N prev)) (v_trailer r) ->
    history prev older -> history offset (r :: older).

(** 7.5.2, 7.5.5: a file begins with the version and ends with the place of the newest section *)
Definition follows (v : version) (revs : list revision) : Prop :=
  exists offset,
    history offset revs /\
    (exists e rest, line_end e /\ file = str "%PDF-" ++ version_digits v ++ e ++ rest) /\
    (exists before white e1 ds e2 e3, In white pdf_white /\ line_end e1 /\ number_text ds offset /\ line_end e2 /\
       Forall (fun c => In c pdf_white) e3 /\ file = before ++ [white] ++ str "startxref" ++ e1 ++ ds ++ e2 ++ str "%%EOF" ++ e3 /\
       N.of_nat (List.length ds + List.length e3) <= 16000) /\
    N.of_nat (List.length file) < 2 ^ 63.

(** ** What the file means *)
Variable revs : list revision.
Definition listed_last (n : N) (r : entry_row) : Prop :=
  exists newer s older, revs = newer ++ s :: older /\ In (n, r) (v_rows s) /\ forall x r', In x newer -> ~ In (n, r') (v_rows x).
Definition never_listed (n : N) : Prop := forall x r, In x revs -> ~ In (n, r) (v_rows x).

(** 7.5.7: an object stream begins with N pairs of the number of an object and its place behind First; from there on come objects, the
    first of which is that object.  No number comes twice. *)
Inductive pairs_text : list N -> list (N * N) -> Prop :=
| pt_nil : pairs_text [] []
| pt_cons : forall dn n g1 dp place g2 more l, number_text dn n -> n < 2 ^ 63 -> gap g1 -> g1 <> [] -> number_text dp place -> gap g2 -> g2 <> [] ->
    pairs_text more l -> pairs_text (dn ++ g1 ++ dp ++ g2 ++ more) ((n, place) :: l).
Definition holds_objects (m : list (list N * obj)) (body : list N) (members : list (N * obj)) : Prop :=
  exists first g text rest places,
    In (str "First", OInt (Z.of_N first)) m /\ In (str "N", OInt (Z.of_nat (List.length members))) m /\
    body = g ++ text ++ rest /\ gap g /\ pairs_text text places /\ N.of_nat (List.length body) < 2 ^ 63 /\
    Forall2 (fun p mem => fst p = fst mem /\ exists behind, items_text (skipn (N.to_nat (first + snd p)) body) (snd mem :: behind)) places members /\
    NoDup (map fst members) /\ members <> [].

(** an integer that is the length of a stream: an object at an offset *)
Definition plain_integer (n g : N) (z : Z) : Prop :=
  exists offset, listed_last n (AtOffset offset g) /\ object_at object_text file offset n g (OInt z).
(** 7.5.7: an object stream has generation 0, and its length is not in an object stream *)
Definition object_stream (s : N) (members : list (N * obj)) : Prop :=
  exists offset len m data body, listed_last s (AtOffset offset 0) /\ (forall n g z, len n g = Some z -> plain_integer n g z) /\
    object_at (stream_text len) file offset s 0 (OStream m data) /\ decode m data = Ok body /\ holds_objects m body members.
(** an object in an object stream *)
Definition packed_object (n : N) (o : obj) : Prop :=
  exists s index members, listed_last n (Packed s index) /\ object_stream s members /\ nth_error members (N.to_nat index) = Some (n, o).
(** an object at an offset: a direct one, or a stream whose length stands in its dictionary or is an object of the file *)
Definition length_object (n g : N) (z : Z) : Prop := plain_integer n g z \/ g = 0 /\ packed_object n (OInt z).
Definition any_body (txt : list N) (o : obj) : Prop :=
  object_text txt o \/ exists len, (forall n g z, len n g = Some z -> length_object n g z) /\ stream_text len txt o.

(** 7.3.10, 7.5.4, 7.5.8.3: the object that a reference stands for *)
Inductive means (n g : N) : obj -> Prop :=
| me_offset : forall offset o, listed_last n (AtOffset offset g) -> object_at any_body file offset n g o -> means n g o
| me_packed : forall o, g = 0 -> packed_object n o -> means n g o
| me_other : forall offset g', listed_last n (AtOffset offset g') -> g' <> g -> means n g ONull
| me_not_packed : forall s i, listed_last n (Packed s i) -> g <> 0 -> means n g ONull
| me_deleted : forall g', listed_last n (Deleted g') -> means n g ONull
| me_reserved : forall t, listed_last n (Reserved t) -> means n g ONull
| me_unknown : never_listed n -> means n g ONull.

(** every section that is newer than one that lists the number with this generation, and lists the number too, lists it with the same
    generation: the number was not given to another object since *)
Definition row_generation (r : entry_row) : N := match r with AtOffset _ g => g | Deleted g => g | _ => 0 end.
Definition in_use (r : entry_row) : Prop := match r with AtOffset _ _ | Packed _ _ => True | _ => False end.
Definition number_kept (n g : N) : Prop :=
  forall newer s older r, revs = newer ++ s :: older -> In (n, r) (v_rows s) -> in_use r -> row_generation r = g ->
    forall x q, In x newer -> In (n, q) (v_rows x) -> row_generation q = g.
End File.
Definition follows_standard decode file : version -> list revision -> Prop := follows decode file true.
(** all that the standard says, but for the rows of cross-reference streams for themselves *)
Definition follows_but_own_rows decode file : version -> list revision -> Prop := follows decode file false.
(** no row has a type that the standard keeps for later, and every row of a stream says its type *)
Definition rows_known (revs : list revision) : Prop := forall s n t, In s revs -> ~ In (n, Reserved t) (v_rows s).
Definition types_given (revs : list revision) : Prop :=
  forall s l w, In s revs -> v_self s <> None -> In (str "W", OArr (w :: l)) (v_trailer s) -> w <> OInt 0.
(** the object streams hold no objects that no section lists *)
Definition members_listed (decode : list (list N * obj) -> list N -> res (list N)) (file : list N) (revs : list revision) : Prop :=
  forall s members n o, object_stream decode file revs s members -> In (n, o) members -> exists x r, In x revs /\ In (n, r) (v_rows x) /\ row_generation r = 0.

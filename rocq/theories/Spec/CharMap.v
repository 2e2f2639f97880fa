(** Character maps (ISO 32000-1, 9.10.3 and Adobe's CMap files): which code is mapped to what, and which texts denote which maps. *)
From Coq Require Import List NArith ZArith Bool String.
From Coq Require Import List.
From Verif.Model Require Import Base Object CharMap.
From Verif.Spec Require Import Arith Strings Grammar.
Import ListNotations.
Local Open Scope N_scope.

(** the number [v] in [n] bytes, the highest first *)
Fixpoint be_bytes (n : nat) (v : N) : list N :=
  match n with
  | O => []
  | S k => be_bytes k (v / 256) ++ [v mod 256]
  end.

(** [key] lies between two codes of its length *)
Definition code_between (lo hi key : list N) : Prop :=
  List.length lo = List.length key /\ List.length hi = List.length key /\ big_endian lo <= big_endian key <= big_endian hi.

(** a map as the standard wants it: codes are bytes, the two ends of a range have one length *)
Definition good_map (m : char_map) : Prop :=
  Forall (fun r => all_bytes (fst r) /\ all_bytes (snd r) /\ List.length (fst r) = List.length (snd r)) (codespace m) /\
  Forall (fun r => all_bytes (low r) /\ all_bytes (high r) /\ List.length (low r) = List.length (high r)) (ranges m).
Definition in_space (m : char_map) (key : list N) : Prop := exists r, In r (codespace m) /\ code_between (fst r) (snd r) key.
(** the first range with the key *)
Definition range_of (m : char_map) (key : list N) (r : range) : Prop :=
  exists before after, ranges m = before ++ r :: after /\ code_between (low r) (high r) key /\
    Forall (fun r' => ~ code_between (low r') (high r') key) before.
Definition no_range (m : char_map) (key : list N) : Prop := Forall (fun r' => ~ code_between (low r') (high r') key) (ranges m).

(** texts *)
Definition integer_text (ds : list N) (n : nat) : Prop := ds <> [] /\ Forall decimal_digit ds /\ decimal_value ds = N.of_nat n.
Inductive pairs_text : list N -> list (list N * list N) -> Prop :=
| pt_nil : forall g, gap g -> pairs_text g []
| pt_cons : forall g1 t1 v1 g2 t2 v2 more l, gap g1 -> hex_text t1 v1 -> gap g2 -> hex_text t2 v2 -> pairs_text more l ->
    pairs_text (g1 ++ (60 :: t1 ++ [62]) ++ g2 ++ (60 :: t2 ++ [62]) ++ more) ((v1, v2) :: l).
(** a destination: a string or an array of strings *)
Inductive destination : obj -> Prop :=
| ds_hex : forall v, destination (OHex v)
| ds_arr : forall l, destination (OArr l).
Inductive ranges_text : list N -> list range -> Prop :=
| rt_nil : forall g, gap g -> ranges_text g []
| rt_cons : forall g1 t1 v1 g2 t2 v2 g3 t3 o more l, gap g1 -> hex_text t1 v1 -> gap g2 -> hex_text t2 v2 ->
    gap g3 -> object_text t3 o -> destination o -> ranges_text more l ->
    ranges_text (g1 ++ (60 :: t1 ++ [62]) ++ g2 ++ (60 :: t2 ++ [62]) ++ g3 ++ t3 ++ more) ({| low := v1; high := v2; dest := o |} :: l).

(** a word that is neither a number nor a name *)
Definition word (w : list N) : Prop :=
  Forall pdf_regular w /\ match w with [] => False | c :: _ => ~ (48 <= c <= 57) /\ ~ In c [43; 45; 46] end.
Definition section_words : list (list N) :=
  [str "begincodespacerange"; str "beginbfrange"; str "beginbfchar"; str "beginnotdefrange"; str "beginnotdefchar"; str "begincidrange"; str "begincidchar"].
Definition defined_names : list (list N) := [str "CIDSystemInfo"; str "CMapName"; str "CMapType"].

(** a section: number of entries, keyword, entries, closing keyword *)
Definition section_text (ds g2 kw body kw2 : list N) : list N := ds ++ g2 ++ kw ++ body ++ kw2.

Inductive cmap_text : list N -> char_map -> Prop :=
| ct_end : forall g, gap g -> cmap_text g {| codespace := []; ranges := []; chars := [] |}
| ct_word : forall g w more m, gap g -> word w -> token_ends more -> cmap_text more m -> cmap_text (g ++ w ++ more) m
| ct_name : forall g kt n more m, gap g -> name_text kt n -> ~ In n defined_names -> token_ends more -> cmap_text more m ->
    cmap_text (g ++ (47 :: kt) ++ more) m
| ct_number : forall g ds n g2 w more m, gap g -> integer_text ds n -> gap g2 -> g2 <> [] -> word w -> ~ In w section_words -> token_ends more ->
    cmap_text more m -> cmap_text (g ++ ds ++ g2 ++ w ++ more) m
| ct_codespace : forall g ds g2 body l more cs rs ch, gap g -> integer_text ds (List.length l) -> (N.of_nat (List.length l) < 2 ^ 63) -> gap g2 -> g2 <> [] ->
    pairs_text body l -> token_ends body -> body <> [] -> token_ends more -> cmap_text more {| codespace := cs; ranges := rs; chars := ch |} ->
    cmap_text (g ++ section_text ds g2 (str "begincodespacerange") body (str "endcodespacerange") ++ more)
              {| codespace := l ++ cs; ranges := rs; chars := ch |}
| ct_ranges : forall g ds g2 body l more cs rs ch, gap g -> integer_text ds (List.length l) -> (N.of_nat (List.length l) < 2 ^ 63) -> gap g2 -> g2 <> [] ->
    ranges_text body l -> token_ends body -> body <> [] -> token_ends more -> cmap_text more {| codespace := cs; ranges := rs; chars := ch |} ->
    cmap_text (g ++ section_text ds g2 (str "beginbfrange") body (str "endbfrange") ++ more)
              {| codespace := cs; ranges := l ++ rs; chars := ch |}
| ct_chars : forall g ds g2 body l more cs rs ch, gap g -> integer_text ds (List.length l) -> (N.of_nat (List.length l) < 2 ^ 63) -> gap g2 -> g2 <> [] ->
    pairs_text body l -> token_ends body -> body <> [] -> token_ends more -> cmap_text more {| codespace := cs; ranges := rs; chars := ch |} ->
    cmap_text (g ++ section_text ds g2 (str "beginbfchar") body (str "endbfchar") ++ more)
              {| codespace := cs; ranges := rs; chars := l ++ ch |}
| ct_info : forall g g2 dt m' g3 more m r o z, gap g -> gap g2 -> object_text dt (ODict m') -> gap g3 ->
    In (str "Registry", OLit r) m' -> In (str "Ordering", OLit o) m' -> In (str "Supplement", OInt z) m' ->
    token_ends more -> cmap_text more m ->
    cmap_text (g ++ str "/CIDSystemInfo" ++ g2 ++ dt ++ g3 ++ str "def" ++ more) m
| ct_cmapname : forall g g2 kt n g3 more m, gap g -> gap g2 -> name_text kt n -> gap g3 -> g3 <> [] -> token_ends more -> cmap_text more m ->
    cmap_text (g ++ str "/CMapName" ++ g2 ++ (47 :: kt) ++ g3 ++ str "def" ++ more) m
| ct_cmaptype : forall g g2 ds n g3 more m, gap g -> gap g2 -> g2 <> [] -> integer_text ds n -> N.of_nat n < 2 ^ 63 -> gap g3 -> g3 <> [] ->
    token_ends more -> cmap_text more m ->
    cmap_text (g ++ str "/CMapType" ++ g2 ++ ds ++ g3 ++ str "def" ++ more) m.

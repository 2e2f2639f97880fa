(** Texts of direct PDF objects (ISO 32000-1, 7.2 and 7.3): which texts denote which object.
    Objects are the values of Model/Object.v (a plain data type). *)
From Coq Require Import List NArith ZArith Bool String Sorted.
From Verif.Model Require Import Base Object.
From Verif.Spec Require Import Strings.
Import ListNotations.
Local Open Scope N_scope.

(** 7.2.2, 7.2.3: white space and comments between tokens *)
Inductive gap : list N -> Prop :=
| gap_nil : gap []
| gap_white : forall c g, In c pdf_white -> gap g -> gap (c :: g)
| gap_comment : forall body e g, Forall (fun c => c <> 10 /\ c <> 13) body -> In e [[10]; [13]; [13; 10]] -> gap g ->
    gap (37 :: body ++ e ++ g).

(** 7.3.3: numbers *)
Definition decimal_digit (c : N) : Prop := 48 <= c <= 57.
Definition decimal_value (ds : list N) : N := fold_left (fun a c => 10 * a + (c - 48)) ds 0.
Inductive sign_text : list N -> bool -> Prop :=
| st_none : sign_text [] false
| st_plus : sign_text [43] false
| st_minus : sign_text [45] true.
Definition signed (neg : bool) (n : N) : Z := if neg then (- Z.of_N n)%Z else Z.of_N n.

(** a key's value in a dictionary text: a null value is the same as a missing entry; of duplicate keys the first one counts
    (the standard leaves duplicates undefined) *)
Fixpoint first_value (k : list N) (es : list (list N * obj)) : option obj :=
  match es with
  | [] => None
  | (k', o) :: t => if list_eq_dec N.eq_dec k k' then match o with ONull => first_value k t | _ => Some o end
                    else first_value k t
  end.

(** order of keys in memory: lexicographic, characters as signed values *)
Inductive key_lt : list N -> list N -> Prop :=
| kl_nil : forall y b, key_lt [] (y :: b)
| kl_less : forall x y a b, (schar x < schar y)%Z -> key_lt (x :: a) (y :: b)
| kl_eq : forall x a b, key_lt a b -> key_lt (x :: a) (x :: b).

Definition keys_sorted (m : list (list N * obj)) : Prop := StronglySorted (fun a b => key_lt (fst a) (fst b)) m.
Definition dict_content (es m : list (list N * obj)) : Prop :=
  keys_sorted m /\ forall k v, In (k, v) m <-> first_value k es = Some v.

(** objects whose last character is their own delimiter *)
Definition self_delimited (o : obj) : bool :=
  match o with OLit _ | OHex _ | OArr _ | ODict _ => true | _ => false end.

Inductive object_text : list N -> obj -> Prop :=
| ot_null : object_text (str "null") ONull
| ot_true : object_text (str "true") (OBool true)
| ot_false : object_text (str "false") (OBool false)
| ot_int : forall s neg ds, sign_text s neg -> ds <> [] -> Forall decimal_digit ds ->
    (- 2 ^ 63 <= signed neg (decimal_value ds) < 2 ^ 63)%Z ->
    object_text (s ++ ds) (OInt (signed neg (decimal_value ds)))
| ot_real : forall s neg ip fp, sign_text s neg -> ip ++ fp <> [] -> Forall decimal_digit ip -> Forall decimal_digit fp ->
    object_text (s ++ ip ++ [46] ++ fp) (OReal neg (decimal_value (ip ++ fp)) (N.of_nat (List.length fp)))
| ot_name : forall txt n, name_text txt n -> object_text (47 :: txt) (OName n)
| ot_lit : forall txt v, literal_text 0 txt v -> object_text (40 :: txt ++ [41]) (OLit v)
| ot_hex : forall txt v, hex_text txt v -> object_text (60 :: txt ++ [62]) (OHex v)
| ot_ref : forall dn g1 dg g2, dn <> [] -> Forall decimal_digit dn -> decimal_value dn < 2 ^ 63 ->
    dg <> [] -> Forall decimal_digit dg -> decimal_value dg <= 65535 ->
    gap g1 -> g1 <> [] -> gap g2 -> g2 <> [] ->
    object_text (dn ++ g1 ++ dg ++ g2 ++ str "R") (ORef (decimal_value dn) (decimal_value dg))
| ot_arr : forall txt l, items_text txt l -> object_text (91 :: txt ++ [93]) (OArr l)
| ot_dict : forall txt es m, entries_text txt es -> dict_content es m -> object_text ([60; 60] ++ txt ++ [62; 62]) (ODict m)
with items_text : list N -> list obj -> Prop :=
| it_nil : forall g, gap g -> items_text g []
| it_cons : forall g txt o more l, gap g -> object_text txt o -> items_text more l ->
    (self_delimited o = false -> token_ends more) ->
    items_text (g ++ txt ++ more) (o :: l)
with entries_text : list N -> list (list N * obj) -> Prop :=
| en_nil : forall g, gap g -> entries_text g []
| en_cons : forall g kt k g2 txt o more es, gap g -> name_text kt k -> gap g2 -> object_text txt o -> entries_text more es ->
    token_ends (g2 ++ txt ++ more) ->
    (self_delimited o = false -> token_ends more) ->
    entries_text (g ++ (47 :: kt) ++ g2 ++ txt ++ more) ((k, o) :: es).

(** What may follow an object so that its end is clear: nothing, a closing bracket, or a keyword that is not "R" or "stream",
    after white space or comments. *)
Definition following_keywords : list (list N) :=
  [str "endobj"; str "endstream"; str "xref"; str "startxref"; str "trailer"; str "obj"; str "null"; str "true"; str "false"].
Inductive object_end : list N -> Prop :=
| oe_eof : forall g, gap g -> object_end g
| oe_array : forall g rest, gap g -> object_end (g ++ 93 :: rest)
| oe_dict : forall g rest, gap g -> object_end (g ++ 62 :: 62 :: rest)
| oe_word : forall g w rest, gap g -> g <> [] -> In w following_keywords -> token_ends rest -> object_end (g ++ w ++ rest).

(** Values an application can build and write: bytes are bytes, integers fit 64 bits, object numbers and generations are in
    range, a real has at least one digit after the point, dictionaries are in map order without null values.
    Streams are not direct objects. *)
Inductive writable : obj -> Prop :=
| w_null : writable ONull
| w_bool : forall b, writable (OBool b)
| w_int : forall z, (- 2 ^ 63 <= z < 2 ^ 63)%Z -> writable (OInt z)
| w_real : forall neg m p, 1 <= p -> writable (OReal neg m p)
| w_name : forall n, all_bytes n -> writable (OName n)
| w_lit : forall v, all_bytes v -> writable (OLit v)
| w_hex : forall v, all_bytes v -> writable (OHex v)
| w_ref : forall num gen, num < 2 ^ 63 -> gen <= 65535 -> writable (ORef num gen)
| w_arr : forall l, Forall writable l -> writable (OArr l)
| w_dict : forall m, keys_sorted m -> Forall (fun e => all_bytes (fst e) /\ snd e <> ONull) m ->
    Forall writable (map snd m) -> writable (ODict m).

(** 7.3.8: stream objects with a direct or indirect /Length; [len] gives the integer an indirect length refers to *)
Inductive stream_text (len : N -> N -> option Z) : list N -> obj -> Prop :=
| stt : forall dt m g eol data g2,
    object_text dt (ODict m) -> gap g -> In eol [[10]; [13; 10]] -> gap g2 ->
    (In (str "Length", OInt (Z.of_nat (List.length data))) m \/
     exists n v, In (str "Length", ORef n v) m /\ len n v = Some (Z.of_nat (List.length data))) ->
    stream_text len (dt ++ g ++ str "stream" ++ eol ++ data ++ g2 ++ str "endstream") (OStream m data).

(** What may be expected of bodies of streams. *)
From Coq Require Import List NArith ZArith Bool String.
From Coq Require Import List.
From Verif.Model Require Import Base SMap Object Encryption StreamBody.
From Verif.Spec Require Import Strings Arith Filters.
Import ListNotations.
Local Open Scope N_scope.

(** decoding undoes encoding *)
Definition undoes (encode decode : bytes -> res bytes) : Prop := forall b e, encode b = Ok e -> decode e = Ok b.

(** no prediction is asked for *)
Definition no_predictor (p : dict) : Prop := sm_find (str "Predictor") p = None \/ sm_find (str "Predictor") p = Some (OInt 1).
(** one entry of an array of filter parameters *)
Definition plain_parameter (o : obj) : Prop := o = ONull \/ exists d, o = ODict d /\ no_predictor d.

(** the filters of a header, in order; a single name counts as a list of one *)
Inductive filter_list : dict -> list bytes -> Prop :=
| fl_none : forall d, sm_find (str "Filter") d = None -> filter_list d []
| fl_null : forall d, sm_find (str "Filter") d = Some ONull -> filter_list d []
| fl_name : forall d n, sm_find (str "Filter") d = Some (OName n) -> filter_list d [n]
| fl_array : forall d ns, sm_find (str "Filter") d = Some (OArr (map OName ns)) -> filter_list d ns.
Definition is_array (d : dict) : Prop := exists l, sm_find (str "Filter") d = Some (OArr l).

(** every filter has plain parameters *)
Definition plain_parameters (d : dict) (n : nat) : Prop :=
  sm_find (str "DecodeParms") d = None \/
  (exists p, sm_find (str "DecodeParms") d = Some (ODict p) /\ no_predictor p) \/
  (exists l, sm_find (str "DecodeParms") d = Some (OArr l) /\ (n <= List.length l)%nat /\ Forall plain_parameter l).

(** ** What the data of a stream means (ISO 32000-1, 7.4): [encoded_by n p body data] when [data] is [body] encoded for the filter [n]
    with parameters [p]; lossy filters and LZW are not described *)
Definition parameter (k : bytes) (p : dict) (default v : Z) : Prop :=
  sm_find k p = Some (OInt v) \/ (sm_find k p = None /\ v = default).
Inductive encoded_by (inflate : bytes -> res bytes) : bytes -> dict -> bytes -> bytes -> Prop :=
| eb_flate : forall p body data, no_predictor p -> inflate data = Ok body -> encoded_by inflate (str "FlateDecode") p body data
| eb_png : forall p predictor colors bits columns early rows data,
    parameter (str "Predictor") p 1 predictor -> parameter (str "Colors") p 1 colors -> parameter (str "BitsPerComponent") p 8 bits ->
    parameter (str "Columns") p 1 columns -> parameter (str "EarlyChange") p 1 early ->
    (10 <= predictor)%Z -> (1 <= colors)%Z -> (1 <= bits)%Z -> (1 <= columns)%Z -> (colors * columns * bits + 7 < 2 ^ 32)%Z ->
    ((colors * bits) mod 8 = 0)%Z ->
    let row := Z.to_nat (colors * columns * bits / 8) in
    (* the rows use the PNG filters None, Sub and Up; the others are refuted in C10 *)
    Forall (fun r => (fst r <= 2 \/ (fst r <= 4 /\ columns = 1%Z)) /\ List.length (snd r) = row /\ all_bytes (snd r)) rows ->
    inflate data = Ok (png_filter_image (Z.to_nat (colors * bits / 8)) (repeat 0 row) rows) ->
    encoded_by inflate (str "FlateDecode") p (List.concat (map snd rows)) data
| eb_ascii85 : forall p body txt rest, ascii85_text (without_white txt) body ->
    encoded_by inflate (str "ASCII85Decode") p body (txt ++ [126; 62] ++ rest)
| eb_asciihex : forall p body txt rest, hex_text txt body -> Nat.even (List.length (without_white txt)) = true ->
    encoded_by inflate (str "ASCIIHexDecode") p body (txt ++ [62] ++ rest).
(** several filters: the first of the list is the first to decode with *)
Inductive layers (inflate : bytes -> res bytes) : list (bytes * dict) -> bytes -> bytes -> Prop :=
| lay_none : forall b, layers inflate [] b b
| lay_more : forall n p l body inner data, encoded_by inflate n p inner data -> layers inflate l body inner ->
    layers inflate ((n, p) :: l) body data.
(** the filters of a header with their parameters *)
Definition as_parameter (p : dict) (o : obj) : Prop := o = ODict p \/ (o = ONull /\ p = []).
Inductive header_filters : dict -> list (bytes * dict) -> Prop :=
| hf_none : forall d, sm_find (str "Filter") d = None \/ sm_find (str "Filter") d = Some ONull -> header_filters d []
| hf_name : forall d n p, sm_find (str "Filter") d = Some (OName n) ->
    sm_find (str "DecodeParms") d = Some (ODict p) \/ (sm_find (str "DecodeParms") d = None /\ p = []) -> header_filters d [(n, p)]
| hf_plain : forall d ns, sm_find (str "Filter") d = Some (OArr (map OName ns)) -> sm_find (str "DecodeParms") d = None ->
    header_filters d (map (fun n => (n, [])) ns)
| hf_array : forall d l os, sm_find (str "Filter") d = Some (OArr (map (fun x => OName (fst x)) l)) ->
    sm_find (str "DecodeParms") d = Some (OArr os) -> Forall2 as_parameter (map snd l) os -> header_filters d l.

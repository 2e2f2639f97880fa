(** What encoded data means, independent of the library. *)
From Coq Require Import List NArith ZArith Bool.
From Verif.Spec Require Import Strings Arith.
Import ListNotations.
Local Open Scope N_scope.

(** ** ISO 32000-1, 7.4.3: ASCII base-85.  Five digits stand for four bytes as a big-endian number. *)
Definition digits85 (a b c d e : N) (v : N) : Prop :=
  a < 85 /\ b < 85 /\ c < 85 /\ d < 85 /\ e < 85 /\ v = a * 85 ^ 4 + b * 85 ^ 3 + c * 85 ^ 2 + d * 85 + e.
Definition byte4 (w x y z : N) : Prop := w < 256 /\ x < 256 /\ y < 256 /\ z < 256.

(** [ascii85_text txt v]: the characters [txt] (white space and the end marker left out) encode the bytes [v].
    A partial last group of n bytes is padded with zero bytes and its first n+1 digits are kept. *)
Inductive ascii85_text : list N -> list N -> Prop :=
| a85_nil : ascii85_text [] []
| a85_z : forall t v, ascii85_text t v -> ascii85_text (122 :: t) (0 :: 0 :: 0 :: 0 :: v)
| a85_group : forall a b c d e w x y z t v, byte4 w x y z -> digits85 a b c d e (big_endian [w; x; y; z]) ->
    ascii85_text t v -> ascii85_text (33 + a :: 33 + b :: 33 + c :: 33 + d :: 33 + e :: t) (w :: x :: y :: z :: v)
| a85_one : forall a b c d e w, byte4 w 0 0 0 -> digits85 a b c d e (big_endian [w; 0; 0; 0]) ->
    ascii85_text [33 + a; 33 + b] [w]
| a85_two : forall a b c d e w x, byte4 w x 0 0 -> digits85 a b c d e (big_endian [w; x; 0; 0]) ->
    ascii85_text [33 + a; 33 + b; 33 + c] [w; x]
| a85_three : forall a b c d e w x y, byte4 w x y 0 -> digits85 a b c d e (big_endian [w; x; y; 0]) ->
    ascii85_text [33 + a; 33 + b; 33 + c; 33 + d] [w; x; y].

(** the text without its white space *)
Definition without_white (s : list N) : list N := filter (fun c => negb (existsb (N.eqb c) pdf_white)) s.

(** every first byte of a group of four is below 128, so that the group's value is below 2^31 *)
Fixpoint groups_below_2_31 (v : list N) : Prop :=
  match v with
  | w :: _ :: _ :: _ :: t => w < 128 /\ groups_below_2_31 t
  | w :: _ => w < 128
  | [] => True
  end.

(** ** PNG filters (W3C PNG specification, chapter 9) *)
Definition png_paeth (a b c : N) : N :=
  let dist x := Z.abs (Z.of_N a + Z.of_N b - Z.of_N c - Z.of_N x) in
  if (dist a <=? dist b)%Z && (dist a <=? dist c)%Z then a else if (dist b <=? dist c)%Z then b else c.
(** predicted value from the left, upper and upper left neighbours *)
Definition png_predict (filter left up upleft : N) : N :=
  match filter with
  | 1 => left
  | 2 => up
  | 3 => (left + up) / 2
  | 4 => png_paeth left up upleft
  | _ => 0
  end.
Definition before (l : list N) (bpp i : nat) : N := if Nat.ltb i bpp then 0 else nth (i - bpp) l 0.
(** filtered byte = raw byte minus prediction, modulo 256 *)
Definition png_filter_row (bpp : nat) (filter : N) (prior raw : list N) : list N :=
  map (fun i => (nth i raw 0 + 256 - png_predict filter (before raw bpp i) (nth i prior 0) (before prior bpp i)) mod 256)
      (seq 0 (length raw)).
(** an image: rows, each with the filter chosen for it *)
Fixpoint png_filter_image (bpp : nat) (prior : list N) (rows : list (N * list N)) : list N :=
  match rows with
  | [] => []
  | (f, raw) :: t => f :: png_filter_row bpp f prior raw ++ png_filter_image bpp raw t
  end.

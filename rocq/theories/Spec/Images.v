(** Pixels in and out of the image codecs. *)
From Coq Require Import List NArith ZArith Bool String.
From Coq Require Import List.
From Verif.Model Require Import Base SMap Object Images.
Import ListNotations.

(** A decompressor on a list of bytes: it gets what there is in order, and starves when it wants more. *)
Inductive meal (A : Type) : Type := Finished (a : A) | Refused | Starved.
Arguments Finished {A} a. Arguments Refused {A}. Arguments Starved {A}.
Fixpoint feed {A : Type} (r : reader A) (l : list N) : meal A :=
  match r with
  | RFail => Refused
  | RDone a => Finished a
  | RByte k => match l with [] => Starved | b :: t => feed (k b) t end
  | RSkip n k => if (n <=? N.of_nat (List.length l))%N then feed k (skipn (N.to_nat n) l) else Starved
  end.

(** a picture as libjpeg gives it: [p_height] lines of [p_width] pixels *)
Definition regular (p : picture) : Prop :=
  List.length (p_lines p) = N.to_nat (p_height p) /\ Forall (fun l => List.length l = N.to_nat (p_width p * p_components p)) (p_lines p) /\
  (p_width p < 2 ^ 31 /\ p_height p < 2 ^ 31 /\ p_components p < 2 ^ 31 /\ p_width p * p_components p < 2 ^ 32)%N.

(** a compressor that is given lines one after the other: all the bytes it gives *)
Fixpoint bytes_of_lines {J : Type} (write_line : J -> bytes -> J * bytes) (finish : J -> bytes) (j : J) (lines : list bytes) : bytes :=
  match lines with
  | [] => finish j
  | l :: r => snd (write_line j l) ++ bytes_of_lines write_line finish (fst (write_line j l)) r
  end.

(** How many components the pixels of a named colour space have (ISO 32000-1, 8.6.4; the short names are those of inline images). *)
Inductive colour_space : bytes -> N -> Prop :=
  | cs_gray : colour_space (str "DeviceGray") 1
  | cs_g : colour_space (str "G") 1
  | cs_rgb : colour_space (str "DeviceRGB") 3
  | cs_short_rgb : colour_space (str "RGB") 3
  | cs_cmyk : colour_space (str "DeviceCMYK") 4
  | cs_short_cmyk : colour_space (str "CMYK") 4.
Inductive colour_components : color -> N -> Prop :=
  | cc_gray : colour_components CGray 1
  | cc_rgb : colour_components CRgb 3
  | cc_cmyk : colour_components CCmyk 4.
(** The picture that is to be compressed is [w] by [h] pixels of [n] components: what decoding noted, or else what the dictionary says. *)
Inductive described (params : list (bytes * obj)) : option metadata -> N -> N -> N -> Prop :=
  | by_dictionary : forall w h space n, sm_find (str "Width") params = Some (OInt (Z.of_N w)) -> sm_find (str "Height") params = Some (OInt (Z.of_N h)) ->
      sm_find (str "ColorSpace") params = Some (OName space) -> colour_space space n -> described params None w h n
  | by_attribute : forall m w h n, (sm_find (str "Width") params = None \/ exists v, sm_find (str "Width") params = Some (OInt v)) ->
      (sm_find (str "Height") params = None \/ exists v, sm_find (str "Height") params = Some (OInt v)) ->
      (sm_find (str "ColorSpace") params = None \/ exists v, sm_find (str "ColorSpace") params = Some (OName v)) ->
      i_width m = Z.of_N w -> i_height m = Z.of_N h -> colour_components (i_color m) n -> described params (Some m) w h n.

(** the sample of component [k] at ([x], [y]) of an image whose components all have its size *)
Definition sample (m : image) (y x k : nat) : option Z :=
  match nth_error (comps m) k with
  | Some c => nth_error (c_data c) (y * N.to_nat (x1 m) + x)
  | None => None
  end.
Definition eight_bits (v : Z) : Prop := (0 <= v <= 255)%Z.
Definition image_points (m : image) : N := x1 m * y1 m.
Definition image_samples (m : image) : N := x1 m * y1 m * N.of_nat (List.length (comps m)).
(** [out] has the samples of each pixel side by side, line after line *)
Definition interleaved (m : image) (out : list N) : Prop :=
  List.length out = N.to_nat (image_samples m) /\
  forall y x k, (y < N.to_nat (y1 m))%nat -> (x < N.to_nat (x1 m))%nat -> (k < List.length (comps m))%nat ->
    exists v, sample m y x k = Some (Z.of_N v) /\ nth_error out ((y * N.to_nat (x1 m) + x) * List.length (comps m) + k) = Some v.

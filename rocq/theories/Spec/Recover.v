(** Streams whose Length entry is missing or wrong: what their text looks like, and what reading it should give. *)
From Coq Require Import List NArith ZArith Bool String.
From Verif.Model Require Import Base Object.
From Verif.Spec Require Import Strings Grammar.
Import ListNotations.
Local Open Scope N_scope.

Definition occurs (w s : list N) : Prop := exists a b, s = a ++ w ++ b.

(** The Length entry of dictionary [m], itself or as a reference to an object of the file, is [z]. *)
Definition says_length (len : N -> N -> option Z) (m : list (list N * obj)) (z : Z) : Prop :=
  In (str "Length", OInt z) m \/ exists n g, In (str "Length", ORef n g) m /\ len n g = Some z.

(** The Length entry does not lead to the word endstream; [text] is the file from the first byte of the stream data on. *)
Inductive damaged_length (len : N -> N -> option Z) (m : list (list N * obj)) (text : list N) : Prop :=
| dl_missing : (forall v, ~ In (str "Length", v) m) -> damaged_length len m text
| dl_negative : forall z, says_length len m z -> (z < 0)%Z -> damaged_length len m text
| dl_beyond : forall z, says_length len m z -> (Z.of_nat (List.length text) <= z)%Z -> damaged_length len m text
| dl_word : forall z before g w after, says_length len m z -> Z.of_nat (List.length before) = z ->
    text = before ++ g ++ w ++ after -> gap g -> w <> [] -> Forall pdf_regular w -> token_ends after ->
    w <> str "endstream" -> damaged_length len m text.

(** [m'] is [m] with the Length entry set to [n]; a Length entry that is a reference stays *)
Definition corrected (m m' : list (list N * obj)) (n : nat) : Prop :=
  (forall k v, k <> str "Length" -> In (k, v) m <-> In (k, v) m') /\
  ((exists i g, In (str "Length", ORef i g) m /\ m' = m) \/ forall v, In (str "Length", v) m' <-> v = OInt (Z.of_nat n)).

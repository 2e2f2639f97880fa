(** Which objects can be stored in a file as an indirect object, and what "the object's text begins at an offset" means. *)
From Coq Require Import List NArith ZArith Bool String.
From Verif.Model Require Import Base Object Numbers Xref Header.
From Verif.Spec Require Import Strings Grammar.
Import ListNotations.
Local Open Scope N_scope.

(** a direct object, or a stream whose dictionary can be written and has no /Length or a direct non-negative one *)
Inductive storable : obj -> Prop :=
| st_direct : forall o, writable o -> storable o
| st_stream : forall m data, writable (ODict m) ->
    (forall v, In (str "Length", v) m -> exists z, v = OInt z /\ (0 <= z)%Z) -> N.of_nat (List.length data) < 2 ^ 63 ->
    storable (OStream m data).

(** what an entry may be when its section is saved: a number and generation that fit, free or in use, with whatever old offset *)
Definition entry_saveable (e : xentry) : Prop :=
  xnum e < 2 ^ 63 /\ xgen e <= 65535 /\
  match xdata e with
  | KFree next => next < 2 ^ 63
  | KUsed _ in_use => in_use = true
  | KComp _ _ => False
  end.

(** the bytes of [file] from position [offset] on start with [text] *)
Definition starts_at (file : bytes) (offset : Z) (text : bytes) : Prop :=
  (0 <= offset)%Z /\ exists before after, file = before ++ text ++ after /\ Z.of_nat (List.length before) = offset.

(** 7.3.10: the beginning of an indirect object, "num gen obj" *)
Definition object_heading (num gen : N) : bytes := digits 10 num ++ [32] ++ digits 10 gen ++ [32] ++ str "obj" ++ [10].

(** an object read back is the one that was written; the /Length of a stream may have been corrected *)
Inductive same_object : obj -> obj -> Prop :=
| so_direct : forall o, writable o -> same_object o o
| so_stream : forall m m' data, (forall k v, k <> str "Length" -> In (k, v) m <-> In (k, v) m') ->
    (forall v, In (str "Length", v) m' <-> v = OInt (Z.of_nat (List.length data))) ->
    same_object (OStream m data) (OStream m' data).

(** lines before the header: text without line ends, and the line end *)
Definition lines_text (ls : list (list N * list N)) : list N := flat_map (fun l => fst l ++ snd l) ls.
Definition garbage_line (l : list N * list N) : Prop :=
  Forall (fun c => c <> 10 /\ c <> 13) (fst l) /\ In (snd l) [[10]; [13]; [13; 10]] /\
  ~ (exists major minor more, In major (str "12") /\ In minor (str "0123456789") /\
       fst l = str "%PDF-" ++ major :: str "." ++ minor :: more).

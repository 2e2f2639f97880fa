(** Which parts of an encrypted file are not enciphered (ISO 32000-1, 7.6.1 and 7.5.8.2; ISO 32000-2 adds the signatures). *)
From Coq Require Import List NArith ZArith Bool String.
From Coq Require Import List.
From Verif.Model Require Import Base SMap Object Encryption Exempt.
Import ListNotations.
Local Open Scope N_scope.

Definition is_ref (o : obj) : Prop := exists n g, o = ORef n g.

(** the value found at the end of references *)
Inductive points (f : source) : loc -> loc -> Prop :=
| points_here : forall s o, ~ is_ref o -> points f (s, o) (s, o)
| points_ref : forall s n g o l, f_object f n g = Ok o -> points f ((PObject n g, []), o) l -> points f (s, ORef n g) l.

(** the entry [k] of the dictionary at [l]; its value; the elements of the array at [l] *)
Definition has_entry (l : loc) (k : bytes) (e : loc) : Prop :=
  exists d o, snd l = ODict d /\ sm_find k d = Some o /\ e = (child (fst l) (SKey k), o).
Definition value_of (f : source) (l : loc) (k : bytes) (v : loc) : Prop := exists e, has_entry l k e /\ points f e v.
Definition element (l : loc) (x : loc) : Prop := exists a i o, snd l = OArr a /\ nth_error a i = Some o /\ x = (child (fst l) (SIndex i), o).
Definition dictionary (l : loc) : Prop := exists d, snd l = ODict d.

Definition trailer (f : source) (i : nat) (l : loc) : Prop :=
  exists b d, nth_error (f_sections f) i = Some (b, d) /\ l = ((PSection i, []), ODict d).

(** the form of the document: its fields, in the array of the form or below other fields, with their types, which may be inherited *)
Definition field_list (f : source) (l : loc) : Prop :=
  exists t root form, trailer f 0 t /\ value_of f t (str "Root") root /\ value_of f root (str "AcroForm") form /\ value_of f form (str "Fields") l.
Definition field_type (f : source) (l : loc) (inherited t : option bytes) : Prop :=
  (exists s n, value_of f l (str "FT") (s, OName n) /\ t = Some n) \/ ((forall e, ~ has_entry l (str "FT") e) /\ t = inherited).
Inductive field (f : source) : loc -> option bytes -> Prop :=
| field_top : forall fs x l t, field_list f fs -> element fs x -> points f x l -> dictionary l -> field_type f l None t -> field f l t
| field_kid : forall p u ks x l t, field f p u -> value_of f p (str "Kids") ks -> element ks x -> points f x l -> dictionary l ->
    field_type f l u t -> field f l t.
Definition text (o : obj) (s : bytes) : Prop := o = OLit s \/ o = OHex s.
Definition signature (f : source) (c : loc) : Prop :=
  exists l v s, field f l (Some (str "Sig")) /\ value_of f l (str "V") v /\ value_of f v (str "Contents") c /\ text (snd c) s.

Definition inside (s p : spot) : Prop := exists q, p = (fst s, snd s ++ q).

(** what the standard leaves as it is *)
Inductive left_plain (f : source) : spot -> Prop :=
| plain_dictionary : forall t v p, trailer f 0 t -> value_of f t (str "Encrypt") v -> inside (fst v) p -> left_plain f p
| plain_identifier : forall i t v p, trailer f i t -> value_of f t (str "ID") v -> inside (fst v) p -> left_plain f p
| plain_xref_trailer : forall i d q, nth_error (f_sections f) i = Some (true, d) -> left_plain f (PSection i, q)
| plain_xref_stream : forall n g q, In (n, g) (f_xref_streams f) -> left_plain f (PObject n g, q)
| plain_packed : forall n g q, f_packed f n g = true -> left_plain f (PObject n g, q)
| plain_signature : forall c p, signature f c -> inside (fst c) p -> left_plain f p.

(** the part of the file at a spot *)
Fixpoint at_path (o : obj) (q : list step) (v : obj) : Prop :=
  match q with
  | [] => v = o
  | SKey k :: q' => exists d u, (o = ODict d \/ exists s, o = OStream d s) /\ sm_find k d = Some u /\ at_path u q' v
  | SIndex i :: q' => exists a u, o = OArr a /\ nth_error a i = Some u /\ at_path u q' v
  end.
Definition part (f : source) (p : spot) (v : obj) : Prop :=
  match fst p with
  | PSection i => exists b d, nth_error (f_sections f) i = Some (b, d) /\ at_path (ODict d) (snd p) v
  | PObject n g => exists o, f_object f n g = Ok o /\ at_path o (snd p) v
  end.
(** what encryption is about *)
Definition has_data (o : obj) : Prop := (exists s, text o s) \/ (exists d s, o = OStream d s).

(** Files of the usual layout: the encryption dictionary is not hidden behind two references, identifiers are direct objects, and
    all fields are in the array of the form. *)
Definition usual_layout (f : source) : Prop :=
  (forall t s n g o, trailer f 0 t -> has_entry t (str "Encrypt") (s, ORef n g) -> f_object f n g = Ok o -> ~ is_ref o) /\
  (forall i t s o, trailer f i t -> has_entry t (str "ID") (s, o) -> ~ is_ref o) /\
  (forall l t e, field f l t -> ~ has_entry l (str "Kids") e).

(** Nothing stands in the way of opening: objects can be read and are not references, the encryption dictionary is not in an object
    stream, the empty password opens the file if object streams have to be opened, and form, fields and signatures are what the
    standard says they are, with contents in hexadecimal. *)
Definition orderly (f : source) : Prop :=
  f_sections f <> [] /\
  (forall n g, exists o, f_object f n g = Ok o /\ ~ is_ref o) /\
  (forall t s n g, trailer f 0 t -> has_entry t (str "Encrypt") (s, ORef n g) -> f_packed f n g = false) /\
  ((exists k, current_key (f_crypt f) = Ok k) \/ forall n g, f_packed f n g = false) /\
  (forall t root form, trailer f 0 t -> value_of f t (str "Root") root -> value_of f root (str "AcroForm") form -> dictionary form) /\
  (forall l, field_list f l -> exists a, snd l = OArr a) /\
  (forall fs x l, field_list f fs -> element fs x -> points f x l ->
     (forall t, value_of f l (str "FT") t -> exists n, snd t = OName n) /\
     (forall s v, value_of f l (str "FT") (s, OName (str "Sig")) -> value_of f l (str "V") v ->
        dictionary v /\ forall c, value_of f v (str "Contents") c -> exists b, snd c = OHex b)).

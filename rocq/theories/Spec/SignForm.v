(** What a signed document looks like to a reader: ISO 32000-1, 12.7.2 and 12.8. *)
From Coq Require Import List NArith ZArith Bool String.
From Verif.Model Require Import Base Token Buffer Equality PageTree Append SignForm.
Import ListNotations.
Local Open Scope N_scope.

(** the value a path of keys leads to, references being followed at every step *)
Definition deref (h : objects) (v : value) : option value := match v with VRef n _ => h n | _ => Some v end.
Fixpoint leads (h : objects) (v : value) (path : list bytes) : option value :=
  match path with
  | [] => deref h v
  | k :: t => match deref h v with Some (VDict l) => match entry_get k l with Some u => leads h u t | None => None end | _ => None end
  end.
(** the elements of the array at a path; none when there is none *)
Definition listed (h : objects) (v : value) (path : list bytes) : list value := match leads h v path with Some (VArr l) => l | _ => [] end.

(** the fields of the form of the document with catalog [r], and the annotations of page [p] *)
Definition form_fields (h : objects) (r : N) : list value := listed h (VRef r 0) [str "AcroForm"; str "Fields"].
Definition page_annotations (h : objects) (p : N) : list value := listed h (VRef p 0) [str "Annots"].
(** bit [i] of the signature flags; a missing entry has no bit set *)
Definition flag_bit (h : objects) (r : N) (i : Z) : bool :=
  match leads h (VRef r 0) [str "AcroForm"; str "SigFlags"] with
  | Some (VInt (QSigned z)) | Some (VInt (QUnsigned z)) | Some (VReal (QSigned z)) | Some (VReal (QUnsigned z)) => Z.testbit z i
  | _ => false
  end.

(** [p] is the first page of the document with catalog [r] *)
Definition first_page_of (fuel : nat) (h : objects) (r p : N) : Prop :=
  exists t l, h r = Some (VDict l) /\ entry_get (str "Pages") l = Some (VRef t 0) /\ get_page fuel (nodes h) t 1 = Ok p.

(** the annotations of the page and the fields of the form are one and the same indirect array *)
Definition shared_array (h : objects) (r p : N) : Prop :=
  exists n g g' l m, h p = Some (VDict l) /\ entry_get (str "Annots") l = Some (VRef n g) /\
    leads h (VRef r 0) [str "AcroForm"] = Some (VDict m) /\ entry_get (str "Fields") m = Some (VRef n g').

(** object [f] is a signature field with an invisible widget on page [p] and the signature dictionary [s] as its value *)
Definition signature_field (h : objects) (f p s : N) : Prop :=
  exists l, h f = Some (VDict l) /\
    entry_get (str "FT") l = Some (VName (str "Sig")) /\ entry_get (str "V") l = Some (VRef s 0) /\
    entry_get (str "Type") l = Some (VName (str "Annot")) /\ entry_get (str "Subtype") l = Some (VName (str "Widget")) /\
    entry_get (str "P") l = Some (VRef p 0) /\
    entry_get (str "Rect") l = Some (VArr [VInt (QSigned 0); VInt (QSigned 0); VInt (QSigned 0); VInt (QSigned 0)]).
(** the partial field name, ISO 32000-1, 12.7.3.2: siblings shall have different ones *)
Definition field_name (h : objects) (f : N) : option bytes := match leads h (VRef f 0) [str "T"] with Some (VStr _ t) => Some t | _ => None end.

(** What may change in an object that was there before: the entries Annots, AcroForm, Fields and SigFlags of dictionaries, new elements
    [VRef f 0] at the end of arrays, the two lowest bits of numbers.  All other entries are exactly the same. *)
Definition form_keys : list bytes := [str "Annots"; str "AcroForm"; str "Fields"; str "SigFlags"].
Definition numeric_bits (q q' : numeric) : Prop :=
  match q, q' with
  | QSigned z, QSigned z' | QUnsigned z, QUnsigned z' => forall i, (2 <= i < 64)%Z -> Z.testbit z' i = Z.testbit z i
  | _, _ => q' = q
  end.
Inductive keeps (f : N) : value -> value -> Prop :=
| k_same : forall v, keeps f v v
| k_array : forall l n, keeps f (VArr l) (VArr (l ++ repeat (VRef f 0) n))
| k_int : forall q q', numeric_bits q q' -> keeps f (VInt q) (VInt q')
| k_real : forall q q', numeric_bits q q' -> keeps f (VReal q) (VReal q')
| k_dict : forall l l',
    (forall k, ~ In k form_keys -> entry_get k l' = entry_get k l) ->
    (forall k u, In k form_keys -> entry_get k l = Some u -> exists u', entry_get k l' = Some u' /\ keeps f u u') ->
    keeps f (VDict l) (VDict l').

(** numbers for new objects are unused *)
Definition fresh_numbers (alloc : objects -> res N) : Prop := forall h n, alloc h = Ok n -> h n = None.

(** A document that can be signed: a catalog with a page tree with a page; where Annots, AcroForm, SigFlags and Fields are present they
    have the type they should have. *)
Definition entry_if_any (h : objects) (v : value) (k : bytes) (good : value -> Prop) : Prop :=
  forall l u, deref h v = Some (VDict l) -> entry_get k l = Some u -> (forall n g, u = VRef n g -> g = 0) /\ exists w, deref h u = Some w /\ good w.
Definition signable (fuel : nat) (d : doc) (r p : N) : Prop :=
  let h := d_objects d in
  d_root d = Some r /\
  (exists t l m c, h r = Some (VDict l) /\ entry_get (str "Pages") l = Some (VRef t 0) /\ h t = Some (VDict m) /\
     page_count (nodes h) t = Ok c /\ 0 < c /\ get_page fuel (nodes h) t 1 = Ok p) /\
  (exists l, h p = Some (VDict l)) /\
  entry_if_any h (VRef p 0) (str "Annots") (fun w => exists l, w = VArr l) /\
  entry_if_any h (VRef r 0) (str "AcroForm") (fun w => exists l, w = VDict l /\
    entry_if_any h w (str "SigFlags") (fun x => exists z, x = VInt (QSigned z) /\ (- 2 ^ 63 <= z < 2 ^ 63)%Z) /\
    entry_if_any h w (str "Fields") (fun x => exists a, x = VArr a)).

(** the objects that make up the form and the annotations: the catalog, the page, and what their entries refer to *)
Definition involved (h : objects) (r p n : N) : Prop :=
  n = r \/ n = p \/
  (exists l g, h p = Some (VDict l) /\ entry_get (str "Annots") l = Some (VRef n g)) \/
  (exists l g, h r = Some (VDict l) /\ entry_get (str "AcroForm") l = Some (VRef n g)) \/
  (exists l g k, leads h (VRef r 0) [str "AcroForm"] = Some (VDict l) /\ (k = str "Fields" \/ k = str "SigFlags") /\ entry_get k l = Some (VRef n g)).

(** numbers from [b] on are not used; new objects get one of the numbers up to the first of them, as long as it is not above [limit] *)
Definition unused_from (b : N) (h : objects) : Prop := forall n, b <= n -> h n = None.
Definition room (alloc : objects -> res N) (limit : N) : Prop := forall b h, 0 < b -> b <= limit -> unused_from b h -> exists n, alloc h = Ok n /\ n <= b.

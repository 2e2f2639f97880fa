(** The objects Document::Sign creates around the signature dictionary (semantics/objects/document.cpp:728-809): the annotation of the
    first page that is also the signature field, the interactive form and its flags (semantics/objects/interactive_forms.cpp,
    signature_flags.h).

    Simplifications: objects have generation 0 and are given by their numbers; an indirect object is not itself a reference; entries of
    dictionaries are kept in no particular order; the nodes of the page tree are as in Model/Append.v. *)
From Coq Require Import List NArith ZArith Bool String.
From Verif.Model Require Import Base Arith Token Buffer Equality PageTree Append.
Import ListNotations.
Local Open Scope N_scope.

(** The indirect objects of a file, by number *)
Definition objects := N -> option value.
Definition put_object (h : objects) (n : N) (v : value) : objects := fun m => if m =? n then Some v else h m.
Definition nodes (h : objects) : pheap := fun n => match h n with Some v => Some (node_of v) | None => None end.

(** An object in memory: the indirect object with a number, or a direct one inside of it, found by a path of keys.  What a program has
    in hand are pointers to such objects. *)
Definition place := (N * list bytes)%type.
Fixpoint part (v : value) (ks : list bytes) {struct ks} : option value :=
  match ks with
  | [] => Some v
  | k :: t => match v with VDict l => match entry_get k l with Some u => part u t | None => None end | _ => None end
  end.
Fixpoint put_part (v : value) (ks : list bytes) (w : value) {struct ks} : value :=
  match ks with
  | [] => w
  | k :: t => match v with VDict l => VDict (map (fun e => if bytes_eqb (fst e) k then (fst e, put_part (snd e) t w) else e) l) | _ => v end
  end.
Definition read (h : objects) (p : place) : option value := match h (fst p) with Some v => part v (snd p) | None => None end.
Definition write (h : objects) (p : place) (w : value) : objects :=
  match h (fst p) with Some v => put_object h (fst p) (put_part v (snd p) w) | None => h end.

(** The state a call works on: the objects and the number of the catalog (entry Root of the trailer).  What was done before an
    exception stays done. *)
Record doc := { d_objects : objects; d_root : option N }.
Definition act (A : Type) : Type := doc -> doc * res A.
Definition ret {A} (a : A) : act A := fun d => (d, Ok a).
Definition fail {A} (e : exn) : act A := fun d => (d, Throw e).
Definition lift {A} (f : objects -> res A) : act A := fun d => (d, f (d_objects d)).
Definition bind {A B} (m : act A) (k : A -> act B) : act B := fun d =>
  match m d with
  | (d', Ok a) => k a d'
  | (d', Throw e) => (d', Throw e)
  | (d', Undef) => (d', Undef)
  | (d', NoFuel) => (d', NoFuel)
  end.
Notation "'let!' x := m 'in' k" := (bind m (fun x => k)) (at level 200, x name, m at level 100, k at level 200).
Notation "m ;! k" := (bind m (fun _ => k)) (at level 199, right associativity).

Section Sign.
Variable alloc : objects -> res N.   (* File::AllocateNewEntry, file.cpp:931-1002 (C23) *)

(** AllocateNewEntry and SetReference: a new indirect object *)
Definition allocate (v : value) : act N := fun d =>
  match alloc (d_objects d) with
  | Ok n => ({| d_objects := put_object (d_objects d) n v; d_root := d_root d |}, Ok n)
  | Throw e => (d, Throw e)
  | Undef => (d, Undef)
  | NoFuel => (d, NoFuel)
  end.
Definition store (p : place) (w : value) : act unit := fun d => ({| d_objects := write (d_objects d) p w; d_root := d_root d |}, Ok tt).

(** ConvertTo<DictionaryObjectPtr> and ConvertTo<MixedArrayObjectPtr>, object_utils.h:160-197, of the object at a place *)
Definition dict_at (p : place) : act entries := lift (fun h => match read h p with Some (VDict l) => Ok l | _ => Throw EConversion end).
Definition array_at (p : place) : act (list value) := lift (fun h => match read h p with Some (VArr l) => Ok l | _ => Throw EConversion end).

(** DictionaryObject::Contains, dictionary_object.cpp:213-217 *)
Definition has (k : bytes) (l : entries) : bool := match entry_get k l with Some _ => true | None => false end.
(** DictionaryObject::Insert without overwriting, dictionary_object.cpp:180-206 *)
Definition insert_entry (p : place) (k : bytes) (w : value) : act unit :=
  let! l := dict_at p in
  if has k l then fail EDuplicateKey else store p (VDict ((k, w) :: l)).
(** MixedArrayObject::Append, mixed_array_object.cpp:75-80 *)
Definition append_value (p : place) (w : value) : act unit := let! l := array_at p in store p (VArr (l ++ [w])).

(** DictionaryObject::Find and the dereferencing of FindAs (dictionary_object.h, object_utils.h:126-155): the object an entry stands for *)
Definition entry_place (p : place) (k : bytes) (l : entries) : res place :=
  match entry_get k l with
  | None => Throw EGeneral
  | Some (VRef n g) => if g =? 0 then Ok (n, []) else Throw ENotModelled
  | Some _ => Ok (fst p, snd p ++ [k])
  end.
Definition find_entry (p : place) (k : bytes) : act place := let! l := dict_at p in lift (fun _ => entry_place p k l).

(** if (!Contains(k)) Insert(k, default); Find(k): document.cpp:755-760, interactive_forms.cpp:34-58 *)
Definition ensure_entry (p : place) (k : bytes) (default : value) : act place :=
  let! l := dict_at p in
  (if has k l then ret tt else insert_entry p k default) ;!
  find_entry p k.

(** GetDocumentCatalog, document.cpp:149-171, and CreateCatalog, 207-228 *)
Definition catalog : act N := fun d =>
  match d_root d with
  | Some r => bind (dict_at (r, [])) (fun _ => ret r) d
  | None =>
      match allocate (VDict [(str "Type", VName (str "Catalog"))]) d with
      | (d', Ok n) => ({| d_objects := d_objects d'; d_root := Some n |}, Ok n)
      | other => other
      end
  end.

(** Catalog::Pages, catalog.cpp:51-65, PageTree::PageCount, page_tree.cpp:17-20, and Page(1): document.cpp:741-753 *)
Definition first_page (fuel : nat) (r : N) : act N :=
  let! l := dict_at (r, []) in
  if has (str "Pages") l then
    let! q := find_entry (r, []) (str "Pages") in
    dict_at q ;!
    match q with
    | (t, []) =>
        let! c := lift (fun h => page_count (nodes h) t) in
        if c =? 0 then fail EGeneral else lift (fun h => get_page fuel (nodes h) t 1)
    | _ => fail ENotModelled
    end
  else fail EGeneral.

(** Catalog::AcroForm, catalog.cpp:180-189, and Document::CreateAcroForm, document.cpp:300-315 *)
Definition interactive_form (r : N) : act place :=
  let! l := dict_at (r, []) in
  if has (str "AcroForm") l then
    let! q := find_entry (r, []) (str "AcroForm") in
    dict_at q ;! ret q
  else
    let! n := allocate (VDict []) in
    insert_entry (r, []) (str "AcroForm") (VRef n 0) ;! ret (n, []).

(** ConvertTo<IntegerObjectPtr>, object_utils.h:76-100, and NumericObjectBackend::ToggleBit, numeric_object.cpp:81-114 *)
Definition number_of (q : numeric) : number := match q with QSigned z => NSigned z | QUnsigned z => NUnsigned z | QReal _ => NReal end.
Definition toggled (q : numeric) (pos : Z) : res numeric :=
  do n <- toggle_bit (number_of q) pos true;;
  match n with NSigned z => Ok (QSigned z) | NUnsigned z => Ok (QUnsigned z) | NReal => Undef end.
Definition set_flag (p : place) (pos : Z) : act unit := fun d =>
  match read (d_objects d) p with
  | Some (VInt q) => match toggled q pos with Ok q' => store p (VInt q') d | Throw e => (d, Throw e) | Undef => (d, Undef) | NoFuel => (d, NoFuel) end
  | Some (VReal q) => match toggled q pos with Ok q' => store p (VReal q') d | Throw e => (d, Throw e) | Undef => (d, Undef) | NoFuel => (d, NoFuel) end
  | _ => (d, Throw EConversion)
  end.

(** the annotation dictionary, document.cpp:762-774, on page [p] *)
Definition annotation (p : N) : value :=
  VDict [ (str "P", VRef p 0);
          (str "Rect", VArr [VInt (QSigned 0); VInt (QSigned 0); VInt (QSigned 0); VInt (QSigned 0)]);
          (str "Subtype", VName (str "Widget"));
          (str "Type", VName (str "Annot")) ].

(** Document::Sign, document.cpp:728-809; [signature] is the signature dictionary (Model/Sign.v).  The numbers of the signature
    dictionary and of the field are returned. *)
Definition sign_objects (fuel : nat) (signature : value) : act (N * N) :=
  let! s := allocate signature in
  let! r := catalog in
  let! p := first_page fuel r in
  let! a := ensure_entry (p, []) (str "Annots") (VArr []) in
  array_at a ;!
  let! f := allocate (annotation p) in
  append_value a (VRef f 0) ;!
  insert_entry (f, []) (str "FT") (VName (str "Sig")) ;!
  insert_entry (f, []) (str "T") (VStr false (str "Signature1")) ;!
  insert_entry (f, []) (str "V") (VRef s 0) ;!
  let! form := interactive_form r in
  let! g := ensure_entry form (str "SigFlags") (VInt (QSigned 0)) in
  set_flag g 0 ;!
  set_flag g 1 ;!
  let! fs := ensure_entry form (str "Fields") (VArr []) in
  append_value fs (VRef f 0) ;!
  ret (s, f).

(** The whole of Document::Sign on the objects in memory: the file is written afterwards (document.cpp:815-825, Model/Sign.v), and what
    comes of it is the result of the call. *)
Definition sign_call (fuel : nat) (signature : value) (written : doc -> N -> res unit) (d : doc) : doc * res unit :=
  match sign_objects fuel signature d with
  | (d', Ok (s, _)) => (d', written d' s)
  | (d', Throw e) => (d', Throw e)
  | (d', Undef) => (d', Undef)
  | (d', NoFuel) => (d', NoFuel)
  end.
End Sign.

(** What it means that a saved document is the same document: following references, whatever the numbers are. *)
From Coq Require Import List NArith ZArith Bool String Permutation.
From Verif.Model Require Import Base SMap Object Equality Token Parser Xref Header FileWrite Chain Duplicates Save.
From Verif.Spec Require Import Grammar Xref FileWrite Chain Merge Unreferenced Duplicates.
Import ListNotations.
Local Open Scope N_scope.

(** The objects of a document, by number and generation; missing ones are null *)
Definition store := N -> N -> obj.
(** ... of a document in memory with the sections [c], newest first *)
Definition document_objects (content : xentry -> obj) (c : chain) : store :=
  fun n g => match resolve_entry n g c with Some e => content e | None => ONull end.
(** ... of a file that was opened, with the table [t]: what loading the entry gives *)
Definition file_store (rl : N -> N -> res Z) (file : bytes) (t : list xentry) : store :=
  fun n g =>
    match entry_for n t with
    | Some (RUsed _ g' offset) =>
        if g' =? g then
          match load_entry parser_dictionary rl file {| xnum := n; xgen := g; xdata := KUsed offset true |} with
          | Ok (_, _, o) => o
          | _ => ONull
          end
        else ONull
    | _ => ONull
    end.

(** What one sees at a place: a reference is followed *)
Definition seen_at (f : store) (o : obj) : obj := match o with ORef n g => f n g | _ => o end.
Definition text_of (o : obj) : option bytes := match o with OLit v | OHex v => Some v | _ => None end.
Definition numeric_obj (o : obj) : Prop := match o with OInt _ | OReal _ _ _ => True | _ => False end.

(** the same keys with related values, keys in [skip] apart *)
Definition entries_agree (skip : list bytes) (R : obj -> obj -> Prop) (m m' : list (bytes * obj)) : Prop :=
  (forall k v, In (k, v) m -> ~ In k skip -> exists v', In (k, v') m' /\ R v v') /\
  (forall k v', In (k, v') m' -> ~ In k skip -> exists v, In (k, v) m /\ R v v').

Section Same.
Variable real : bool -> N -> N -> dbl.

(** The same kind and contents, elements related by [R].  Numbers may be exchanged when the library's comparison calls them equal
    (C14), a string may change its notation; the Length of a stream is left out, the data decides it. *)
Inductive agree (R : obj -> obj -> Prop) : obj -> obj -> Prop :=
| ag_null : agree R ONull ONull
| ag_bool : forall b, agree R (OBool b) (OBool b)
| ag_name : forall n, agree R (OName n) (OName n)
| ag_text : forall a b v, text_of a = Some v -> text_of b = Some v -> agree R a b
| ag_number : forall a b, numeric_obj a -> numeric_obj b -> same_number (value_of real a) (value_of real b) -> agree R a b
| ag_arr : forall l l', Forall2 R l l' -> agree R (OArr l) (OArr l')
| ag_dict : forall m m', entries_agree [] R m m' -> agree R (ODict m) (ODict m')
| ag_stream : forall m m' d, entries_agree [str "Length"] R m m' -> agree R (OStream m d) (OStream m' d).

(** [a] in document [f] and [b] in document [f'] look the same down to depth [k] *)
Fixpoint resembles (f f' : store) (k : nat) (a b : obj) : Prop :=
  match k with
  | O => True
  | S k' => agree (resembles f f' k') (seen_at f a) (seen_at f' b)
  end.
(** ... at any depth *)
Definition same_document (f f' : store) (a b : obj) : Prop := forall k, resembles f f' k a b.
End Same.

(** ** The documents the theorem is about *)
(** all sections are tables without hybrid stream, list each number once, and their entries are free or in use *)
Definition plain_tables (c : chain) : Prop :=
  c <> [] /\ forall s, In s c -> s_kind s = STable /\ s_hybrid s = None /\ NoDup (map xnum (s_entries s)) /\
    forall e, In e (s_entries s) -> xgen e <= 65535 /\ match xdata e with KFree _ => True | KUsed _ u => u = true | KComp _ _ => False end.
(** an object, once it exists, is not deleted and keeps its generation *)
Definition nothing_deleted (c : chain) : Prop :=
  forall newer s older e s' e', c = newer ++ s :: older -> In e (s_entries s) ->
    (forall x y, In x newer -> In y (s_entries x) -> xnum y <> xnum e) ->
    In s' older -> In e' (s_entries s') -> xnum e' = xnum e -> describes_object e' -> describes_object e /\ xgen e = xgen e'.
(** every reference in the document leads to an object that is not null *)
Definition no_loose_reference (f : store) (trailer : obj) : Prop :=
  forall n g, (mentions n g trailer \/ exists m gm, mentions n g (f m gm)) -> f n g <> ONull.
(** every object can be stored, and is not itself a reference *)
Definition stores_objects (f : store) : Prop := forall n g, storable (f n g) /\ forall n' g', f n g <> ORef n' g'.
(** the objects have hashes that do not follow their references (see C30), or are streams with data of their own *)
Definition hashes_steady (real : bool -> N -> N -> dbl) (hash : value -> N) (f : store) : Prop :=
  forall n g,
    steady hash {| d_num := n; d_gen := g; d_comp := false; d_value := value_of real (f n g); d_cache := 0 |} \/
    exists m d, f n g = OStream m d /\ forall n' g' m', f n' g' = OStream m' d -> n' = n /\ g' = g.
(** ** Objects that are in use: those that can be reached from the trailer *)
Inductive live (f : store) (trailer : obj) : N -> N -> Prop :=
| live_trailer : forall n g, mentions n g trailer -> live f trailer n g
| live_step : forall m gm n g, live f trailer m gm -> mentions n g (f m gm) -> live f trailer n g.
(** a reference names the generation that its number has in the newest section that lists an object under this number: the number was
    not given to another object since *)
Definition names_latest (c : chain) (n g : N) : Prop :=
  forall newer s older e, c = newer ++ s :: older -> In e (s_entries s) -> xnum e = n -> describes_object e ->
    (forall x y, In x newer -> In y (s_entries x) -> xnum y = n -> ~ describes_object y) -> xgen e = g.
(** the document, as far as it can be reached: references lead to objects that are not null, the objects can be stored, and their hashes
    do not follow their references, or they are streams with data of their own.  Objects that cannot be reached, deleted ones among
    them, are free to be anything. *)
Record orderly_document (real : bool -> N -> N -> dbl) (hash : value -> N) (c : chain) (f : store) (trailer : obj) : Prop := {
  od_found : forall n g, live f trailer n g -> f n g <> ONull;
  od_latest : forall n g, live f trailer n g -> names_latest c n g;
  od_stored : forall n g, live f trailer n g -> storable (f n g) /\ forall n' g', f n g <> ORef n' g';
  od_steady : forall n g, live f trailer n g ->
    steady hash {| d_num := n; d_gen := g; d_comp := false; d_value := value_of real (f n g); d_cache := 0 |} \/
    exists m d, f n g = OStream m d /\ forall n' g' m', live f trailer n' g' -> f n' g' = OStream m' d -> n' = n /\ g' = g
}.
(** the iteration orders of hash tables: any order of what is in them *)
Definition any_order (order : list (xentry * obj) -> list N) : Prop :=
  forall items n, In n (order items) <-> exists e o, In (e, o) items /\ xnum e = n /\ forall next, xdata e <> KFree next.
Definition any_arrangement (arrange : list ditem -> list ditem) : Prop := forall l, Permutation (arrange l) l.
(** every real number is within the range of a 64-bit integer, so that comparing it with an integer is possible *)
Definition within_range (r : dbl) : Prop :=
  if (0 <=? de r)%Z then (Z.abs (dm r) * 2 ^ de r < 2 ^ 63)%Z else (Z.abs (dm r) < 2 ^ 63 * 2 ^ (- de r))%Z.
Inductive real_inside (neg : bool) (m p : N) : obj -> Prop :=
| ri_here : real_inside neg m p (OReal neg m p)
| ri_arr : forall l o, In o l -> real_inside neg m p o -> real_inside neg m p (OArr l)
| ri_dict : forall l k o, In (k, o) l -> real_inside neg m p o -> real_inside neg m p (ODict l)
| ri_stream : forall l d k o, In (k, o) l -> real_inside neg m p o -> real_inside neg m p (OStream l d).
Definition reals_within_range (real : bool -> N -> N -> dbl) (f : store) : Prop :=
  forall n g neg m p, real_inside neg m p (f n g) -> within_range (real neg m p).
Definition live_reals_within_range (real : bool -> N -> N -> dbl) (f : store) (trailer : obj) : Prop :=
  forall n g neg m p, live f trailer n g -> real_inside neg m p (f n g) -> within_range (real neg m p).

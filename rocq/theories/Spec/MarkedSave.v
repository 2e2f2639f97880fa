(** What the file of an unlicensed save shows of a document (C101). *)
From Coq Require Import List NArith ZArith Bool String.
From Verif.Model Require Import Base Numbers SMap Object Equality Xref.
From Verif.Spec Require Import Strings Grammar FileWrite Watermark Written.
Import ListNotations.
Local Open Scope N_scope.

(** the objects of a document: the entries in use with their objects *)
Definition object_of (items : list (xentry * obj)) (n g : N) : obj :=
  match find (fun p => match xdata (fst p) with KUsed _ true => (xnum (fst p) =? n) && (xgen (fst p) =? g) | _ => false end) items with
  | Some p => snd p
  | None => ONull
  end.
(** the number is the first that the document does not list *)
Definition listed (items : list (xentry * obj)) (n : N) : Prop := exists p, In p items /\ xnum (fst p) = n.
Definition first_unlisted (items : list (xentry * obj)) (n : N) : Prop := ~ listed items n /\ forall k, k < n -> listed items k.
(** the font of the mark *)
Definition font_dictionary : obj :=
  ODict [(str "BaseFont", OName (str "Helvetica")); (str "Subtype", OName (str "Type1")); (str "Type", OName (str "Font"))].
(** [items1] is the document [items] with the font under a new number *)
Definition font_added (items items1 : list (xentry * obj)) (number : N) : Prop :=
  first_unlisted items number /\ NoDup (map (fun p => xnum (fst p)) items1) /\
  forall p, In p items1 <-> p = ({| xnum := number; xgen := 0; xdata := KUsed (-1) true |}, font_dictionary) \/ In p items.

(** the stream [s] of the document is [OStream m data]; [OStream m' data'] is what the file has of it, when the pages are [nodes] *)
Definition stream_marked (real : bool -> N -> N -> dbl) (text image : bytes) (decode : list (bytes * obj) -> bytes -> res bytes)
    (f : N -> N -> obj) (nodes : list (N * N)) (s : N * N) (m m' : list (bytes * obj)) (data data' : bytes) : Prop :=
  (forall k v, k <> str "Length" -> In (k, v) m <-> In (k, v) m') /\
  if existsb (begins f s) nodes || existsb (ends f s) nodes then
    exists body marks, decode m data = Ok body /\ Forall2 (drawn real text image f) (filter (ends f s) nodes) marks /\
      decode m data' = Ok (saves (List.length (filter (begins f s) nodes)) ++ body ++ List.concat (map (fun t => restore_line ++ t) marks))
  else data' = data.

(** there is no page tree: no Root, or no Pages in it, or no Kids in that *)
Definition pageless (f : N -> N -> obj) (trailer : list (bytes * obj)) : Prop :=
  sm_find (str "Root") trailer = None \/
  exists r root, sm_find (str "Root") trailer = Some r /\ is_or_refers f r (ODict root) /\
    (sm_find (str "Pages") root = None \/
     exists p pages, sm_find (str "Pages") root = Some p /\ is_or_refers f p (ODict pages) /\ sm_find (str "Kids") pages = None).
(** Root or Pages is there and is not a dictionary *)
Definition no_dictionary (f : N -> N -> obj) (v : obj) : Prop := forall m, ~ is_or_refers f v (ODict m).
Definition malformed (f : N -> N -> obj) (trailer : list (bytes * obj)) : Prop :=
  exists r, sm_find (str "Root") trailer = Some r /\
    (no_dictionary f r \/ exists root p, is_or_refers f r (ODict root) /\ sm_find (str "Pages") root = Some p /\ no_dictionary f p).

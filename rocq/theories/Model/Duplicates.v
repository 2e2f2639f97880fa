(** FileWriter::RemoveAllDuplicitIndirectObjects: merging equal indirect objects. *)
From Coq Require Import List NArith Bool.
From Verif.Model Require Import Base Buffer Equality.
Import ListNotations.
Open Scope N_scope.

(** One entry in use with its object.  [d_comp]: a compressed entry (XrefCompressedEntry).  [d_cache]: the hash a container keeps
    (m_hash_cache, mixed_array_object.h:76, dictionary_object.h:148), 0 when there is none.
    Entries and their objects are the copies CloneXref made (file_writer.cpp:817-933). *)
Record ditem := { d_num : N; d_gen : N; d_comp : bool; d_value : value; d_cache : N }.
Definition objects (l : list ditem) : file_objects := map (fun x => (d_num x, d_gen x, d_value x)) l.
Definition set_value (x : ditem) (v : value) : ditem :=
  {| d_num := d_num x; d_gen := d_gen x; d_comp := d_comp x; d_value := v; d_cache := d_cache x |}.
Definition set_cache (x : ditem) (h : N) : ditem :=
  {| d_num := d_num x; d_gen := d_gen x; d_comp := d_comp x; d_value := d_value x; d_cache := h |}.
Definition ident := (N * N)%type.
Definition d_id (x : ditem) : ident := (d_num x, d_gen x).
Definition same_id (a b : ident) : bool := (fst a =? fst b) && (snd a =? snd b).
Fixpoint find_item (l : list ditem) (i : ident) : option ditem :=
  match l with
  | [] => None
  | x :: t => if same_id (d_id x) i then Some x else find_item t i
  end.

Section Round.
(** The hash functions of the objects (Model/Equality.v, [hash_value]) *)
Variable hash : value -> N.

(** Hash of an indirect object.  MixedArrayObject::Hash (mixed_array_object.cpp:183-195) and DictionaryObject::Hash
    (dictionary_object.cpp:233-248) answer the kept hash; a copied array or dictionary is not initialized (Clone,
    mixed_array_object.cpp:63-74, dictionary_object.cpp:19-32), so changing one of its references tells nobody (Object::OnChanged,
    object.cpp:216-223) and the kept hash stays.  A copied stream is initialized with everything in its header
    (stream_object.cpp:111-138), so its header's hash follows the change (StreamObject::Hash, stream_object.cpp:613-616). *)
Definition hash_item (x : ditem) : N :=
  match d_value x with
  | VArr _ | VDict _ => if d_cache x =? 0 then hash (d_value x) else d_cache x
  | v => hash v
  end.
(** Computing the hash of a container keeps it.  Simplification: only in the search for duplicates; the objects of compressed
    entries, which are not searched, do not keep theirs. *)
Definition keep_hash (x : ditem) : ditem := if d_comp x then x else set_cache x (hash_item x).

(** unordered_set/unordered_map of ObjectPtr by Hash and Equals (object.h:131-137, object.cpp:296-298): members are the object's
    number and the hash it had when it was inserted.  The member that comes first in the container is found. *)
Definition member := (ident * N)%type.
Fixpoint lookup (l : list ditem) (h : N) (v : value) (set : list member) : res (option ident) :=
  match set with
  | [] => Ok None
  | (i, h') :: t =>
      if h =? h' then
        do r <- equals (objects l) v (find_indirect (objects l) (fst i) (snd i));;
        if r then Ok (Some i) else lookup l h v t
      else lookup l h v t
  end.

(** RemoveDuplicitIndirectObjects, file_writer.cpp:2186-2229: the first loop.  [uniq] is unique_set, [dups] is duplicit_list. *)
Fixpoint scan (l items : list ditem) (uniq : list member) (dups : list (member * ident)) : res (list (member * ident)) :=
  match items with
  | [] => Ok dups
  | x :: t =>
      if d_comp x then scan l t uniq dups
      else
        let h := hash_item x in
        do r <- lookup l h (d_value x) uniq;;
        match r with
        | None => scan l t (uniq ++ [(d_id x, h)]) dups
        | Some rep =>
            do r' <- lookup l h (d_value x) (map fst dups);;
            match r' with
            | None => scan l t uniq (dups ++ [((d_id x, h), rep)])
            | Some _ => scan l t uniq dups
            end
        end
  end.

Definition rep_of (dups : list (member * ident)) (k : ident) : ident :=
  match find (fun d => same_id (fst (fst d)) k) dups with Some d => snd d | None => k end.

(** RedirectReferences, file_writer.cpp:2520-2545, for one reference: GetReferencedObject (a missing object is null) is looked for
    in the list of duplicates. *)
Definition redirect_ref (l : list ditem) (dups : list (member * ident)) (i : ident) : res ident :=
  let v := find_indirect (objects l) (fst i) (snd i) in
  let h := match find_item l i with Some x => hash_item x | None => hash VNull end in
  do r <- lookup l h v (map fst dups);;
  match r with Some k => Ok (rep_of dups k) | None => Ok i end.

(** RedirectReferences.  Simplification: while the references of one object are redirected, the list is searched with the object as
    it was before. *)
Fixpoint redirect_value (l : list ditem) (dups : list (member * ident)) (v : value) {struct v} : res value :=
  let fix entries (e : list (bytes * value)) {struct e} : res (list (bytes * value)) :=
    match e with
    | [] => Ok []
    | (k, x) :: t => do x' <- redirect_value l dups x;; do t' <- entries t;; Ok ((k, x') :: t')
    end in
  match v with
  | VRef n g => do i <- redirect_ref l dups (n, g);; Ok (VRef (fst i) (snd i))
  | VArr e =>
      do e' <- (fix items (e : list value) {struct e} : res (list value) :=
                  match e with
                  | [] => Ok []
                  | x :: t => do x' <- redirect_value l dups x;; do t' <- items t;; Ok (x' :: t')
                  end) e;;
      Ok (VArr e')
  | VDict e => do e' <- entries e;; Ok (VDict e')
  | VStream e b => do e' <- entries e;; Ok (VStream e' b)
  | _ => Ok v
  end.

(** The second loop, file_writer.cpp:2236-2286, entry by entry.  Not modelled: the object stream numbers of compressed entries. *)
Fixpoint redirect_items (dups : list (member * ident)) (before rest : list ditem) : res (list ditem) :=
  match rest with
  | [] => Ok before
  | x :: t =>
      do v <- redirect_value (before ++ x :: t) dups (d_value x);;
      redirect_items dups (before ++ [set_value x v]) t
  end.

(** ReleaseEntry for every duplicate, file_writer.cpp:2296-2305 and xref_chain.cpp:51-82 *)
Definition release (dups : list (member * ident)) (l : list ditem) : list ditem :=
  filter (fun x => negb (existsb (fun d => same_id (fst (fst d)) (d_id x)) dups)) l.

(** RemoveDuplicitIndirectObjects, file_writer.cpp:2179-2311, for one section whose entries in iteration order are [l].  [None]: no
    duplicates were found. *)
Definition round (l : list ditem) (trailer : value) : res (option (list ditem * value)) :=
  do dups <- scan l l [] [];;
  match dups with
  | [] => Ok None
  | _ =>
      do l' <- redirect_items dups [] (map keep_hash l);;
      do trailer' <- redirect_value l' dups trailer;;
      Ok (Some (release dups l', trailer'))
  end.

(** RemoveAllDuplicitIndirectObjects, file_writer.cpp:2160-2177.  [fuel] bounds the number of rounds. *)
Fixpoint rounds (fuel : nat) (l : list ditem) (trailer : value) : res (list ditem * value) :=
  match fuel with
  | O => NoFuel
  | S fuel' =>
      do r <- round l trailer;;
      match r with
      | None => Ok (map keep_hash l, trailer)
      | Some (l', trailer') => rounds fuel' l' trailer'
      end
  end.
Definition remove_duplicates (l : list ditem) (trailer : value) : res (list ditem * value) := rounds (S (length l)) l trailer.
End Round.

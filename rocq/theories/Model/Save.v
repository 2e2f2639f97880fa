(** A full save with the default settings: FileWriter::Write (syntax/files/file_writer.cpp:34-86) for a document whose sections are all
    tables.  The stages are those of CompressAndOptimize (1778-1805); ExtractDuplicitDirectObjects (2154-2160), CompressObjects
    (2313-2319) and CompressXref (2490-2496) do nothing.
    Simplifications: the document is not encrypted, the licence is valid (no watermark), no observer is attached; no entry of the
    source was released. *)
From Coq Require Import List NArith ZArith Bool String.
From Verif.Model Require Import Base SMap Object Equality Xref Header FileWrite Chain Merge Unreferenced Duplicates.
Import ListNotations.
Local Open Scope N_scope.

(** Changing references in place: everything else of the object stays.  [f] gives the new number. *)
Fixpoint rename (f : N -> N -> N) (o : obj) : obj :=
  match o with
  | ORef n g => ORef (f n g) g
  | OArr l => OArr (map (rename f) l)
  | ODict l => ODict (map (fun e => (fst e, rename f (snd e))) l)
  | OStream l d => OStream (map (fun e => (fst e, rename f (snd e))) l) d
  | _ => o
  end.
Definition dict_entries (o : obj) : list (bytes * obj) := match o with ODict l => l | _ => [] end.

Section Save.
(** the double a decimal number is read as (RealObject, real_object.cpp; std::stod) *)
Variable real : bool -> N -> N -> dbl.
(** Object::Hash, Model/Equality.v *)
Variable hash : value -> N.
(** the object an entry holds.  Simplification: entries of different sections with the same number, generation and offset hold equal
    objects *)
Variable content : xentry -> obj.
(** the order in which the hash tables are iterated (xref.h:20, file_writer.cpp:1991-2019) *)
Variable order : list (xentry * obj) -> list N.
Variable arrange : list ditem -> list ditem.

(** the object as compared and hashed (Model/Equality.v) *)
Fixpoint value_of (o : obj) : value :=
  match o with
  | ONull => VNull
  | OBool b => VBool b
  | OInt z => VInt (QSigned z)
  | OReal neg m p => VReal (QReal (real neg m p))
  | OName n => VName n
  | OLit v => VStr false v
  | OHex v => VStr true v
  | ORef n g => VRef n g
  | OArr l => VArr (map value_of l)
  | ODict l => VDict (map (fun e => (fst e, value_of (snd e))) l)
  | OStream l d => VStream (map (fun e => (fst e, value_of (snd e))) l) d
  end.
(** the same object with the references [v] has at the same places: RedirectReferences (file_writer.cpp:2520-2545) changes references
    in place *)
Fixpoint follow (o : obj) (v : value) {struct o} : obj :=
  let fix entries (l : list (bytes * obj)) (w : list (bytes * value)) {struct l} : list (bytes * obj) :=
    match l, w with
    | (k, x) :: l', (_, y) :: w' => (k, follow x y) :: entries l' w'
    | _, _ => l
    end in
  match o, v with
  | ORef _ _, VRef n g => ORef n g
  | OArr l, VArr w =>
      OArr ((fix items (l : list obj) (w : list value) {struct l} : list obj :=
               match l, w with
               | x :: l', y :: w' => follow x y :: items l' w'
               | _, _ => l
               end) l w)
  | ODict l, VDict w => ODict (entries l w)
  | OStream l d, VStream w _ => OStream (entries l w) d
  | _, _ => o
  end.

(** an entry as RemoveDuplicitIndirectObjects sees it, file_writer.cpp:2190-2229; CloneXref (817-933) made the object, so nothing is
    cached yet *)
Definition ditem_of (p : xentry * obj) : ditem :=
  {| d_num := xnum (fst p); d_gen := xgen (fst p); d_comp := match xdata (fst p) with KComp _ _ => true | _ => false end;
     d_value := value_of (snd p); d_cache := 0 |}.
(** the entry afterwards: the object with its redirected references, or a free entry where a duplicate was released
    (xref_chain.cpp:66-76) *)
Definition after_duplicates (l : list ditem) (p : xentry * obj) : xentry * obj :=
  if entry_in_use (fst p) then
    match find_item l (xnum (fst p), xgen (fst p)) with
    | Some y => (fst p, follow (snd p) (d_value y))
    | None => ({| xnum := xnum (fst p); xgen := 0; xdata := KFree 0 |}, ONull)
    end
  else p.
(** RemoveAllDuplicitIndirectObjects, file_writer.cpp:2160-2177, for the one section MergeXrefs left *)
Definition merge_equal (items : list (xentry * obj)) (trailer : list (bytes * obj)) : res (list (xentry * obj) * list (bytes * obj)) :=
  do '(l, t) <- remove_duplicates hash (arrange (map ditem_of (filter (fun p => entry_in_use (fst p)) items))) (value_of (ODict trailer));;
  Ok (map (after_duplicates l) items, dict_entries (follow (ODict trailer) t)).

(** RemoveFreedObjects, file_writer.cpp:1807-1838 *)
Definition drop_freed (items : list (xentry * obj)) : list (xentry * obj) :=
  match items with
  | [] => []
  | p :: t => p :: filter (fun p => entry_in_use (fst p)) t
  end.

(** The number a reference is written with after the entries were renumbered.  SquashTableSpace first makes every reference hold its
    object (file_writer.cpp:2328-2353, InitializeReferences 2498-2518); a reference that holds an object is written with the number of
    the object's entry, but one that holds the null object, because its object is missing or is null, is written with the number it had
    (indirect_reference_object.cpp:20-30, 62-72, 228-234). *)
Definition new_number (items : list (xentry * obj)) (m : list (N * N)) (n g : N) : N :=
  match find (fun p => (xnum (fst p) =? n) && (xgen (fst p) =? g) && entry_in_use (fst p)) items with
  | Some p => match snd p with ONull => n | _ => mapped m n end
  | None => n
  end.
(** SquashTableSpace, file_writer.cpp:2321-2488 *)
Definition close_gaps (items : list (xentry * obj)) (trailer : list (bytes * obj)) : list (xentry * obj) * list (bytes * obj) :=
  let '(c, m) := squash_sections 0 [items] [] in
  let f := new_number items m in
  (map (fun p => (fst p, rename f (snd p))) (List.concat (map (map (fix_stream m)) c)), map (fun e => (fst e, rename f (snd e))) trailer).

(** CompressAndOptimize, file_writer.cpp:1778-1805: [c] has the newest section first *)
Definition optimize (c : chain) : res (list (xentry * obj) * list (bytes * obj)) :=
  do c1 <- merge_chain (fun _ => []) (rev c);;
  match c1 with
  | [m] =>
      let items := map (fun e => (e, content e)) (s_entries m) in
      do c2 <- remove_unreferenced (order items)
                 [{| u_kind := s_kind m; u_self := None; u_items := items; u_trailer := s_trailer m |}];;
      match c2 with
      | [u] =>
          do '(items3, trailer3) <- merge_equal (u_items u) (u_trailer u);;
          Ok (close_gaps (drop_freed items3) trailer3)
      | _ => Throw ENotModelled
      end
  | _ => Throw ENotModelled
  end.
(** FileWriter::Write, file_writer.cpp:34-86 *)
Definition save_file (v : version) (c : chain) : res bytes :=
  do '(items, trailer) <- optimize c;;
  write_table_file v items trailer.
End Save.

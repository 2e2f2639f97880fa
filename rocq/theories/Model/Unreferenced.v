(** Removing unreferenced objects before a full save: FileWriter::RemoveUnreferencedObjects, FindIndirectReferences
    (syntax/files/file_writer.cpp:1974-2152, 2547-2586).
    Simplifications: no hybrid streams (MergeXrefs, the stage before, leaves none); objects held by entries are not the shared null
    object (NullObject::GetInstance, null_object.cpp:29-32), whose own entry would be whichever was set last. *)
From Coq Require Import List NArith ZArith Bool String.
From Verif.Model Require Import Base SMap Object Xref Chain Merge.
Import ListNotations.
Local Open Scope N_scope.

(** a section: its kind, for a cross-reference stream the number of the entry of its own object when there is one, the entries with
    their objects, and the trailer dictionary *)
Record usection : Type := { u_kind : skind; u_self : option N; u_items : list (xentry * obj); u_trailer : list (bytes * obj) }.

(** the references inside an object, file_writer.cpp:2550-2585 *)
Fixpoint refs (o : obj) : list (N * N) :=
  match o with
  | ORef n g => [(n, g)]
  | OArr l => flat_map refs l
  | ODict l | OStream l _ => flat_map (fun e => refs (snd e)) l
  | _ => []
  end.

Definition item_find (n : N) (l : list (xentry * obj)) : option (xentry * obj) := find (fun p => xnum (fst p) =? n) l.
(** XrefChain::GetXrefEntry, xref_chain.cpp:10-29 *)
Fixpoint item_entry (n g : N) (c : list usection) : option (xentry * obj) :=
  match c with
  | [] => None
  | s :: r =>
      match item_find n (u_items s) with
      | Some p => if xgen (fst p) =? g then Some p else item_entry n g r
      | None => item_entry n g r
      end
  end.
(** the referenced object exists, so that its entry is active (file_writer.cpp:2552-2560, File::GetIndirectObject): a missing, free or
    released entry gives the null object *)
Definition resolves (c : list usection) (n g : N) : bool :=
  match item_entry n g c with Some p => entry_in_use (fst p) | None => false end.
Definition marks (c : list usection) (o : obj) : list N :=
  flat_map (fun r => if resolves c (fst r) (snd r) then [fst r] else []) (refs o).

(** XrefUsedEntryBase: used and compressed entries *)
Definition used_type (e : xentry) : bool := match xdata e with KFree _ => false | _ => true end.
(** the map's entry for a number is the first one inserted: entries compare by number only (xref_entry.cpp:77-87) *)
Definition first_item (c : list usection) (n : N) : option (xentry * obj) :=
  find (fun p => (xnum (fst p) =? n) && used_type (fst p)) (flat_map u_items c).
(** XrefUsedEntryBase::GetReference, xref_entry.cpp:112-120: a released entry gives null *)
Definition reference_of (p : xentry * obj) : obj := if entry_in_use (fst p) then snd p else ONull.
Definition mem (n : N) (l : list N) : bool := existsb (N.eqb n) l.

(** what is marked before the loop, file_writer.cpp:2021-2074: the references of a table's trailer; for a cross-reference stream its own
    entry and the object streams of its compressed entries (GetXrefEntry throws when there is none) *)
Fixpoint stream_roots (c : list usection) (l : list (xentry * obj)) : res (list N) :=
  match l with
  | [] => Ok []
  | p :: r =>
      match xdata (fst p) with
      | KComp s _ =>
          match item_entry s 0 c with
          | Some _ => do t <- stream_roots c r;; Ok (s :: t)
          | None => Throw EObjectMissing
          end
      | _ => stream_roots c r
      end
  end.
Definition section_roots (c : list usection) (s : usection) : res (list N) :=
  match u_kind s with
  | STable => Ok (marks c (ODict (u_trailer s)))
  | SStream => do t <- stream_roots c (u_items s);; Ok (match u_self s with Some n => n :: t | None => t end)
  | SVirtual => Ok []
  end.
Fixpoint roots (c l : list usection) : res (list N) :=
  match l with
  | [] => Ok []
  | s :: r => do a <- section_roots c s;; do b <- roots c r;; Ok (a ++ b)
  end.

(** one pass of the loop over the map, file_writer.cpp:2084-2102; [order] is the order in which the map is iterated *)
Fixpoint pass (c : list usection) (order used visited : list N) (found : bool) : list N * list N * bool :=
  match order with
  | [] => (used, visited, found)
  | n :: r =>
      if mem n used && negb (mem n visited) then
        match first_item c n with
        | Some p => pass c r (marks c (reference_of p) ++ used) (n :: visited) true
        | None => pass c r used visited found
        end
      else pass c r used visited found
  end.
(** file_writer.cpp:2080-2108 *)
Fixpoint mark_all (fuel : nat) (c : list usection) (order used visited : list N) : res (list N) :=
  match fuel with
  | O => NoFuel
  | S f =>
      let '(used', visited', found) := pass c order used visited false in
      if found then mark_all f c order used' visited' else Ok used'
  end.

(** file_writer.cpp:2129-2151: the entry is removed from the first section that has its number *)
Fixpoint remove_entry (n : N) (c : list usection) : list usection :=
  match c with
  | [] => []
  | s :: r =>
      match item_find n (u_items s) with
      | Some _ => {| u_kind := u_kind s; u_self := u_self s; u_items := premove n (u_items s); u_trailer := u_trailer s |} :: r
      | None => s :: remove_entry n r
      end
  end.
Definition remove_unused (order used : list N) (c : list usection) : list usection :=
  fold_left (fun c n => if mem n used then c else remove_entry n c) order c.

(** FileWriter::RemoveUnreferencedObjects.  [order]: the numbers of all used and compressed entries, in the order of the hash table *)
Definition remove_unreferenced (order : list N) (c : list usection) : res (list usection) :=
  do r <- roots c c;;
  do used <- mark_all (S (List.length order)) c order r [];;
  Ok (remove_unused order used c).

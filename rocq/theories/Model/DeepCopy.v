(** Copying objects from one file to another: File::DeepCopyObjects. *)
From Coq Require Import List NArith Bool.
From Verif.Model Require Import Base Buffer Equality Duplicates.
Import ListNotations.
Open Scope N_scope.

(** The references inside a value in the order a traversal meets them *)
Fixpoint value_refs (v : value) : list ident :=
  match v with
  | VRef n g => [(n, g)]
  | VArr l => flat_map value_refs l
  | VDict l | VStream l _ => flat_map (fun e => value_refs (snd e)) l
  | _ => []
  end.
Fixpoint lookup_id (f : file_objects) (i : ident) : option value :=
  match f with
  | [] => None
  | (n, g, v) :: t => if same_id (n, g) i then Some v else lookup_id t i
  end.
Fixpoint assoc (m : list (ident * ident)) (i : ident) : option ident :=
  match m with
  | [] => None
  | (a, b) :: t => if same_id a i then Some b else assoc t i
  end.

(** What the caller hands over: an indirect object of the source file or some object that is not indirect *)
Inductive handle : Type :=
| HIndirect (i : ident)
| HDirect (v : value).

Section Copy.
(** File::AllocateNewEntry, file.cpp:931-1002 (C23): a number for the new object, from the numbers in the destination *)
Variable alloc : file_objects -> res ident.
Variable src : file_objects.

(** Originals already copied with the numbers of their copies, and the destination file's objects *)
Record cstate := { c_map : list (ident * ident); c_dst : file_objects }.

(** ShallowCopyObject, file.cpp:1065-1103 (the copy is a Clone, so it still has the original's references), then
    DeepCopyObject, file.cpp:1105-1144, on what it refers to.  Objects are visited once (by address): an indirect object once, and
    what is inside an object once with it.  A missing object is the shared null object, which is not indirect and not copied.
    [fuel] bounds the depth of recursion. *)
Fixpoint copy_object (fuel : nat) (i : ident) (st : cstate) {struct fuel} : res cstate :=
  match fuel with
  | O => NoFuel
  | S fuel' =>
      match assoc (c_map st) i with
      | Some _ => Ok st
      | None =>
          match lookup_id src i with
          | None => Ok st
          | Some v =>
              do new <- alloc (c_dst st);;
              (fix visit (rs : list ident) (st : cstate) {struct rs} : res cstate :=
                 match rs with
                 | [] => Ok st
                 | r :: t => do st' <- copy_object fuel' r st;; visit t st'
                 end) (value_refs v) {| c_map := (i, new) :: c_map st; c_dst := (fst new, snd new, v) :: c_dst st |}
          end
      end
  end.
Fixpoint copy_refs (fuel : nat) (rs : list ident) (st : cstate) : res cstate :=
  match rs with
  | [] => Ok st
  | r :: t => do st' <- copy_object fuel r st;; copy_refs fuel t st'
  end.

(** FixObjectReferences, file.cpp:1004-1063, for the references of one copied object: a reference to an original that was copied is
    set to the copy's number, another one is left.  Not modelled: when a reference is left, the code goes on into the object of the
    destination that happens to have this number and changes its references too. *)
Fixpoint fix_value (m : list (ident * ident)) (v : value) : value :=
  match v with
  | VRef n g => match assoc m (n, g) with Some i => VRef (fst i) (snd i) | None => v end
  | VArr l => VArr (map (fix_value m) l)
  | VDict l => VDict (map (fun e => (fst e, fix_value m (snd e))) l)
  | VStream l b => VStream (map (fun e => (fst e, fix_value m (snd e))) l) b
  | _ => v
  end.
Definition is_copy (m : list (ident * ident)) (i : ident) : bool := existsb (fun e => same_id (snd e) i) m.
Definition fix_all (m : list (ident * ident)) (dst : file_objects) : file_objects :=
  map (fun '(n, g, v) => if is_copy m (n, g) then (n, g, fix_value m v) else (n, g, v)) dst.

(** The result: the copy of every object handed over.  An object that is not indirect is not in the map, and the end of the map is
    read (file.cpp:1167-1171). *)
Fixpoint results (m : list (ident * ident)) (roots : list handle) : res (list ident) :=
  match roots with
  | [] => Ok []
  | HIndirect i :: t => match assoc m i with Some j => do r <- results m t;; Ok (j :: r) | None => Undef end
  | HDirect _ :: _ => Undef
  end.

(** DeepCopyObjects, file.cpp:1151-1174 *)
Definition handle_refs (h : handle) : list ident := match h with HIndirect i => [i] | HDirect v => value_refs v end.
Definition deep_copy (dst : file_objects) (roots : list handle) : res (list ident * file_objects) :=
  do st <- copy_refs (S (length src)) (flat_map handle_refs roots) {| c_map := []; c_dst := dst |};;
  do r <- results (c_map st) roots;;
  Ok (r, fix_all (c_map st) (c_dst st)).
End Copy.

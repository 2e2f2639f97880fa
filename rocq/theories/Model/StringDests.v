(** String destinations when a document is appended: the part of Document::AppendDocument that Model/Append.v leaves out.

    The source's objects are given by their numbers (generation 0; an object that a destination refers to is no reference itself).  The
    page copies are those of Model/Append.v, given as pairs of a page of the source and its copy.  Of the target, only the name tree
    under Names and Dests of the catalog is kept, with its nodes, and the objects made for destinations. *)
From Coq Require Import List NArith ZArith Bool String.
From Coq Require Import List.
From Verif.Model Require Import Base SMap Object Tree.
Import ListNotations.
Local Open Scope N_scope.

(** the target; no tree: there is no Names dictionary, or no Dests in it *)
Record target : Type := { d_tree : option (tnode obj); d_nodes : theap obj; d_copies : list (N * obj) }.

Section StringDests.
Variable objects : N -> option obj.              (* of the source *)
Variable alloc : list (N * obj) -> res N.        (* File::AllocateNewEntry, file.cpp:931-1002 (C23) *)

(** ConvertTo of a reference, object_utils.h:127-160: the object, and whether it is an indirect one *)
Definition resolve (o : obj) : bool * obj :=
  match o with
  | ORef n _ => (true, match objects n with Some x => x | None => ONull end)
  | _ => (false, o)
  end.

(** DestinationBase::Create, destinations.cpp:43-157, and GetPage, 179-193: the page of a destination.  The kinds of destinations are
    not told apart further.  The elements of the array are taken as they are, without following references to names. *)
Definition known_kind (t : bytes) : bool :=
  existsb (beq t) [str "XYZ"; str "Fit"; str "FitH"; str "FitV"; str "FitR"; str "FitB"; str "FitBH"; str "FitBV"].
Definition array_page (l : list obj) : res obj :=
  match l with
  | pg :: OName t :: _ =>
      match pg with
      | OInt _ | ORef _ _ => if known_kind t then Ok pg else Throw EGeneral
      | _ => Throw EGeneral
      end
  | _ => Throw EGeneral
  end.
Definition destination_page (x : obj) : res obj :=
  match x with
  | OArr l => array_page l
  | ODict d =>
      match sm_find (str "D") d with
      | None => Throw EGeneral
      | Some (OArr l) => array_page l
      | Some _ => Throw EConversion
      end
  | _ => Throw EGeneral
  end.

(** Document::IsDestinationReferencingPage, document.cpp:427-472.  A page number: the page itself, without its Parent, is taken for a page
    tree, which fails (page_no_tree in Proof/Append.v); a negative one fails before. *)
Definition on_page (p : N) (pg : obj) : res bool :=
  match pg with
  | ORef n _ => match objects n with Some (ODict _) => Ok (n =? p) | _ => Throw EConversion end
  | OInt z => if (z <? 0)%Z then Throw EConversion else Throw EGeneral
  | _ => Throw EGeneral
  end.

(** Document::FixDestinationPage, document.cpp:338-398, for a page that is given by a reference *)
Definition fix_array (new : N) (l : list obj) : list obj :=
  match l with
  | ORef _ _ :: t => ORef new 0 :: t
  | _ => l
  end.
Definition fix_page (new : N) (x : obj) : obj :=
  match x with
  | OArr l => OArr (fix_array new l)
  | ODict d => ODict (map (fun e => if beq (fst e) (str "D") then (fst e, match snd e with OArr l => OArr (fix_array new l) | o => o end) else e) d)
  | _ => x
  end.

(** CreateNameDictionary and CreateStringDestinations, document.cpp:283-300 and 318-337 *)
Definition empty_root : tnode obj := TNode None false None None.

(** Document::AppendStringDestination, document.cpp:500-543; NameTree::Insert, tree.h:601-607, refers to the copy, and
    IndirectReferenceObject::SetReferencedObject, indirect_reference_object.cpp:153-173, refuses an object that is not indirect *)
Definition append_string (fuel : nat) (new : N) (k : bytes) (o : obj) (tg : target) : target * res unit :=
  let root := match d_tree tg with Some r => r | None => empty_root end in
  let tg1 := {| d_tree := Some root; d_nodes := d_nodes tg; d_copies := d_copies tg |} in
  match name_contains fuel (open_tree (d_nodes tg) root) k with
  | (_, Ok true) => (tg1, Throw ENotSupported)
  | (t, Ok false) =>
      let '(indirect, x) := resolve o in
      if indirect then
        match alloc (d_copies tg) with
        | Ok c =>
            let copies := d_copies tg ++ [(c, fix_page new x)] in
            let '(t2, r) := name_insert fuel t k (ORef c 0) in
            ({| d_tree := Some (t_root t2); d_nodes := t_heap t2; d_copies := copies |}, r)
        | Throw e => (tg1, Throw e)
        | Undef => (tg1, Undef)
        | NoFuel => (tg1, NoFuel)
        end
      else (tg1, Throw EGeneral)
  | (_, Throw e) => (tg1, Throw e)
  | (_, Undef) => (tg1, Undef)
  | (_, NoFuel) => (tg1, NoFuel)
  end.

(** Document::MergeStringDestinations, document.cpp:487-498: the destinations of the source in the order of its map *)
Fixpoint merge_strings (fuel : nat) (p new : N) (names : list (bytes * obj)) (tg : target) : target * res unit :=
  match names with
  | [] => (tg, Ok tt)
  | (k, o) :: t =>
      match rbind (destination_page (snd (resolve o))) (on_page p) with
      | Ok true =>
          match append_string fuel new k o tg with
          | (tg', Ok _) => merge_strings fuel p new t tg'
          | other => other
          end
      | Ok false => merge_strings fuel p new t tg
      | Throw e => (tg, Throw e)
      | Undef => (tg, Undef)
      | NoFuel => (tg, NoFuel)
      end
  end.

(** Document::MergePageDestinations, document.cpp:635-661, for string destinations: the source's tree is read anew for every page *)
Definition merge_page (fuel : nat) (p new : N) (source : option (theap obj * tnode obj)) (tg : target) : target * res unit :=
  match source with
  | None => (tg, Ok tt)
  | Some (h, root) =>
      match initialize buffer_ltb name_as_key false fuel (open_tree h root) with
      | (t, Ok _) => merge_strings fuel p new (t_map t) tg
      | (_, Throw e) => (tg, Throw e)
      | (_, Undef) => (tg, Undef)
      | (_, NoFuel) => (tg, NoFuel)
      end
  end.

(** the loop of Document::AppendDocument, document.cpp:419-424: the pages with their copies *)
Fixpoint merge_pages (fuel : nat) (pages : list (N * N)) (source : option (theap obj * tnode obj)) (tg : target) : target * res unit :=
  match pages with
  | [] => (tg, Ok tt)
  | (p, new) :: rest =>
      match merge_page fuel p new source tg with
      | (tg', Ok _) => merge_pages fuel rest source tg'
      | other => other
      end
  end.
End StringDests.

(** Documents that are made from nothing: Document::Create (semantics/objects/document.cpp), new pages (semantics/objects/page_object.cpp)
    and the calls on the page tree (Model/PageTree.v), on the objects themselves.
    Simplifications: the identifier, the producer and the date of creation are given; the handle of the page tree is the one of object 2,
    which is the tree that Create makes; entries of a page are replaced the way PageObject::SetMediaBox (page_object.cpp:60-67) does it;
    references have generation 0. *)
From Coq Require Import List NArith ZArith Bool String.
From Verif.Model Require Import Base SMap Object Equality Token Xref Header FileWrite Chain Duplicates Update PageTree Save.
Import ListNotations.
Local Open Scope N_scope.

(** the cross-reference chain, m_next_allocation (file.h:150) and the objects by number *)
Record newdoc : Type := { n_chain : chain; n_next : N; n_objects : N -> obj }.
Definition with_object (n : N) (o : obj) (d : newdoc) : newdoc :=
  {| n_chain := n_chain d; n_next := n_next d; n_objects := fun m => if m =? n then o else n_objects d m |}.

(** File::AllocateNewEntry, file.cpp:931-1002, and SetReference *)
Definition new_object (o : obj) (d : newdoc) : res (N * newdoc) :=
  do '(i, c) <- allocate_from (S (chain_size (n_chain d))) (n_next d) (n_chain d);;
  Ok (i, with_object i o {| n_chain := c; n_next := i + 1; n_objects := n_objects d |}).
(** Insert on the trailer of the first section, document.cpp:222-225, 242-245 *)
Definition add_to_trailer (k : bytes) (o : obj) (d : newdoc) : newdoc :=
  {| n_chain := match n_chain d with
                | [] => []
                | s :: t => {| s_kind := s_kind s; s_entries := s_entries s; s_hybrid := s_hybrid s;
                               s_trailer := sm_insert k o (s_trailer s) |} :: t
                end;
     n_next := n_next d; n_objects := n_objects d |}.
(** DictionaryObject::Remove of an old entry and Insert, page_object.cpp:60-67, page_node_base.cpp:35-43 *)
Definition set_entry (k : bytes) (v : obj) (m : list (bytes * obj)) : list (bytes * obj) := sm_insert k v (sm_remove k m).
Definition edit_object (n : N) (f : list (bytes * obj) -> list (bytes * obj)) (d : newdoc) : newdoc :=
  match n_objects d n with
  | ODict m => with_object n (ODict (f m)) d
  | _ => d
  end.

(** ** The page tree on objects *)
Definition tree_number : N := 2.
Definition plain_ref (o : obj) : option N := match o with ORef n 0 => Some n | _ => None end.
Fixpoint plain_refs (l : list obj) : option (list N) :=
  match l with
  | [] => Some []
  | o :: t => match plain_ref o, plain_refs t with Some n, Some r => Some (n :: r) | _, _ => None end
  end.
(** the entries that Model/PageTree.v keeps of a dictionary: PageNodeBase::CreatePageNode, page_node_base.cpp:45-62, Count and Kids,
    page_tree_node.cpp:26-33, Parent, page_node_base.cpp:27-33 *)
Definition page_node (o : obj) : option node :=
  match o with
  | ODict m =>
      let parent := match sm_find (str "Parent") m with Some r => plain_ref r | None => None end in
      match sm_find (str "Type") m with
      | Some (OName t) =>
          if bytes_eqb t (str "Page") then Some (Page parent)
          else if bytes_eqb t (str "Pages") then
            Some (Tree (match sm_find (str "Count") m with Some (OInt z) => Some z | _ => None end)
                       (match sm_find (str "Kids") m with Some (OArr l) => plain_refs l | _ => None end) parent)
          else Some Bad
      | _ => Some Bad
      end
  | _ => None
  end.
Definition page_view (d : newdoc) : pheap := fun n => page_node (n_objects d n).
(** the entries that a call has changed are written into the dictionary: SetParent, page_node_base.cpp:35-43; SetValue of Count,
    page_tree.cpp:170; the array of Kids, page_tree.cpp:116-143, 176-184 *)
Definition write_node (v : option node) (m : list (bytes * obj)) : list (bytes * obj) :=
  match v with
  | Some (Page (Some p)) => set_entry (str "Parent") (ORef p 0) m
  | Some (Tree (Some c) (Some ks) _) => set_entry (str "Count") (OInt c) (set_entry (str "Kids") (OArr (map (fun k => ORef k 0) ks)) m)
  | _ => m
  end.
Definition page_of_call (o : page_op) : option N :=
  match o with PInsert p _ | PAppend p => Some p | PRemove _ => None end.
(** PageTree_InsertPage, PageTree_AppendPage, PageTree_RemovePage: [page_step] of Model/PageTree.v; it changes the dictionary of the tree
    and the one of the page *)
Definition page_call (o : page_op) (d : newdoc) : newdoc * res unit :=
  let '(h, r) := page_step (S (S (chain_size (n_chain d)))) tree_number (page_view d) o in
  let d1 := edit_object tree_number (write_node (h tree_number)) d in
  match page_of_call o, r with
  | Some p, Ok _ => (edit_object p (write_node (h p)) d1, r)
  | _, _ => (d1, r)
  end.

(** ** Creating the document *)
(** Document::GenerateDocumentId, document.cpp:113-134: twice the same string *)
Definition id_array (id : bytes) : obj := OArr [OHex id; OHex id].
(** Document::CreateFile, document.cpp:47-111: CreateCatalog (207-228), Catalog::CreatePages (catalog.cpp:191-214), the first page,
    CreateDocumentInfo (230-248), SetProducer and SetCreationDate (document_info.cpp:167-173) *)
Definition empty_document (id : bytes) : newdoc :=
  {| n_chain := [{| s_kind := STable; s_entries := [{| xnum := 0; xgen := 65535; xdata := KFree 0 |}]; s_hybrid := None;
                    s_trailer := [(str "ID", id_array id)] |}];
     n_next := 0; n_objects := fun _ => ONull |}.
Definition create_document (id producer date : bytes) : res newdoc :=
  do '(catalog, d1) <- new_object (ODict [(str "Type", OName (str "Catalog"))]) (empty_document id);;
  let d2 := add_to_trailer (str "Root") (ORef catalog 0) d1 in
  do '(tree, d3) <- new_object (ODict [(str "Count", OInt 0); (str "Type", OName (str "Pages"))]) d2;;
  let d4 := edit_object catalog (sm_insert (str "Pages") (ORef tree 0)) d3 in
  do '(page, d5) <- new_object (ODict [(str "Type", OName (str "Page"))]) d4;;
  let '(d6, r) := page_call (PAppend page) d5 in
  do _ <- r;;
  do '(info, d7) <- new_object (ODict []) d6;;
  let d8 := add_to_trailer (str "Info") (ORef info 0) d7 in
  let d9 := edit_object info (sm_insert (str "Producer") (OLit producer)) d8 in
  Ok (edit_object info (sm_insert (str "CreationDate") (OLit date)) d9).

(** ** Editing it *)
(** NewPage: PageObject_CreateFromDocument, page_object.cpp:152-169; NewObject: File_AllocateNewEntry and SetReference; SetEntry: an
    entry of the dictionary of a page; Pages: a call on the page tree *)
Inductive action : Type := NewPage | NewObject (o : obj) | SetEntry (n : N) (k : bytes) (v : obj) | Pages (o : page_op).
Inductive answer : Type := Number (r : res N) | Done (r : res unit).
Definition created (d : newdoc) (r : res (N * newdoc)) : newdoc * answer :=
  match r with
  | Ok (i, d') => (d', Number (Ok i))
  | Throw e => (d, Number (Throw e))
  | Undef => (d, Number Undef)
  | NoFuel => (d, Number NoFuel)
  end.
Definition step (d : newdoc) (a : action) : newdoc * answer :=
  match a with
  | NewPage => created d (new_object (ODict [(str "Type", OName (str "Page"))]) d)
  | NewObject o => created d (new_object o d)
  | SetEntry n k v => (edit_object n (set_entry k v) d, Done (Ok tt))
  | Pages o => let '(d', r) := page_call o d in (d', Done r)
  end.
Fixpoint run (d : newdoc) (l : list action) : newdoc * list answer :=
  match l with
  | [] => (d, [])
  | a :: t => let '(d1, x) := step d a in let '(d2, xs) := run d1 t in (d2, x :: xs)
  end.

(** ** Saving it *)
Definition contents (d : newdoc) (e : xentry) : obj := n_objects d (xnum e).
(** Document::Save, document.cpp; the version is the one that CreateFile sets, document.cpp:55-56 *)
Definition save (real : bool -> N -> N -> dbl) (hash : value -> N) (order : list (xentry * obj) -> list N) (arrange : list ditem -> list ditem)
    (d : newdoc) : res bytes :=
  save_file real hash (contents d) order arrange PDF17 (n_chain d).
(** Document::SaveIncremental, document.cpp:200-203: the source is an empty file, the allocated entries are changed (file.cpp:986) and the
    table has no offset (xref.h:171) *)
Definition save_update (d : newdoc) : res bytes :=
  write_incremental []
    (map (fun s => {| f_offset := -1;
                      f_items := map (fun e => {| f_entry := e; f_object := contents d e; f_dirty := match xdata e with KUsed _ _ => true | _ => false end |}) (s_entries s);
                      f_trailer := s_trailer s |}) (n_chain d)).

(** The typed views on dictionaries: entries of a page, of the document information and of the viewer preferences.

    Indirect objects are given by their numbers ([heap n] is the object with number n, [ONull] when there is none; generations left
    out).  Simplification: an indirect object is not itself a reference.  A view of an entry (ResourceDictionary, Rectangle,
    PageAnnotations, PageContents) is represented by the value of the entry it was made from. *)
From Coq Require Import List NArith ZArith Bool String.
From Coq Require Import List.
From Verif.Model Require Import Base SMap Object Containers.
Import ListNotations.
Local Open Scope N_scope.

Section Views.
Variable heap : N -> obj.

(** DereferenceHelper, object_utils.h:126-155 *)
Definition target (v : obj) : obj := match v with ORef n _ => heap n | _ => v end.

(** ConvertTo<DictionaryObjectPtr> and the other conversions, object_utils.h:160-270 *)
Definition is_dict (v : obj) : bool := match target v with ODict _ => true | _ => false end.
Definition is_null (v : obj) : bool := match target v with ONull => true | _ => false end.
Definition is_stream (v : obj) : bool := match target v with OStream _ _ => true | _ => false end.
Definition is_number (v : obj) : bool := match target v with OInt _ | OReal _ _ _ => true | _ => false end.
Definition array_of (v : obj) : option (list obj) := match target v with OArr l => Some l | _ => None end.

(** Rectangle::Rectangle, rectangle.cpp:14-24, of an array *)
Definition rectangle_ok (v : obj) : res unit :=
  match array_of v with
  | None => Throw EConversion
  | Some l => if negb (Nat.eqb (List.length l) 4) then Throw EGeneral
              else if forallb is_number l then Ok tt else Throw EConversion
  end.

(** The entries of a page that are looked up every time. *)
Inductive entry : Type := EResources | EMediaBox | EAnnots.
Definition entry_name (e : entry) : bytes :=
  match e with EResources => str "Resources" | EMediaBox => str "MediaBox" | EAnnots => str "Annots" end.
Definition entry_ok (e : entry) (v : obj) : res unit :=
  match e with
  | EResources => if is_dict v then Ok tt else Throw EConversion
  | EMediaBox => rectangle_ok v
  | EAnnots => match array_of v with Some _ => Ok tt | None => Throw EConversion end
  end.

(** A PageObject: its dictionary, and m_contents (page_object.h). *)
Record page : Type := { p_dict : smap obj; p_contents : option obj }.

(** PageObject::GetResources, GetMediaBox and GetAnnotations, page_object.cpp:29-38, 49-58, 69-78 *)
Definition page_get (e : entry) (p : page) : res (option obj) :=
  if sm_contains (entry_name e) (p_dict p) then
    do v <- dict_find (p_dict p) (entry_name e);;
    do u <- entry_ok e v;;
    Ok (Some v)
  else Ok None.

(** Remove when present, then Insert: SetResources, SetMediaBox and SetAnnotations, page_object.cpp:40-47, 60-67, 80-87 *)
Definition put_entry (k : bytes) (v : obj) (m : smap obj) : res (smap obj) :=
  let m1 := if sm_contains k m then fst (dict_remove m k) else m in
  dict_insert m1 k v false.
Definition page_set (e : entry) (v : obj) (p : page) : res page :=
  do m <- put_entry (entry_name e) v (p_dict p);;
  Ok {| p_dict := m; p_contents := p_contents p |}.

(** PageObject::SetContents, page_object.cpp:89-97: a reference to the indirect object; m_contents stays *)
Definition page_set_contents (n : N) (p : page) : res page :=
  do m <- put_entry (str "Contents") (ORef n 0) (p_dict p);;
  Ok {| p_dict := m; p_contents := p_contents p |}.

(** PageObject::GetContents, page_object.cpp:99-145 *)
Definition page_get_contents (p : page) : page * res (option obj) :=
  match p_contents p with
  | Some c => (p, Ok (Some c))
  | None =>
      match dict_try_find (p_dict p) (str "Contents") with
      | None => (p, Ok None)
      | Some v =>
          let streams := match array_of v with Some l => forallb is_stream l | None => false end in
          if is_null v then (p, Ok None)
          else if is_stream v || streams then ({| p_dict := p_dict p; p_contents := Some v |}, Ok (Some v))
          else (p, Throw EGeneral)
      end
  end.

(** One call on a page and what the caller sees; a call that throws leaves the page as it was *)
Inductive page_op : Type := PSet (e : entry) (v : obj) | PGet (e : entry) | PSetContents (n : N) | PGetContents.
Definition page_step (p : page) (o : page_op) : page * res (option obj) :=
  match o with
  | PSet e v => match page_set e v p with Ok p' => (p', Ok None) | Throw x => (p, Throw x) | Undef => (p, Undef) | NoFuel => (p, NoFuel) end
  | PGet e => (p, page_get e p)
  | PSetContents n =>
      match page_set_contents n p with Ok p' => (p', Ok None) | Throw x => (p, Throw x) | Undef => (p, Undef) | NoFuel => (p, NoFuel) end
  | PGetContents => page_get_contents p
  end.
Fixpoint page_run (p : page) (os : list page_op) : page * list (res (option obj)) :=
  match os with
  | [] => (p, [])
  | o :: t => let '(p1, a) := page_step p o in let '(p2, l) := page_run p1 t in (p2, a :: l)
  end.

(** PageObject::PageObject, page_object.cpp:23-27: the entry Type has to be the name Page *)
Definition page_object (m : smap obj) : res unit :=
  do v <- dict_find m (str "Type");;
  match target v with
  | OName n => if beq n (str "Page") then Ok tt else Throw EGeneral
  | _ => Throw EConversion
  end.

(** PageObjectExtensions::GetInheritableResources, page_object.cpp:173-189 *)
Fixpoint inheritable_resources (fuel : nat) (m : smap obj) : res (option obj) :=
  match fuel with
  | O => NoFuel
  | S f =>
      if sm_contains (str "Resources") m then
        do v <- dict_find m (str "Resources");;
        if is_dict v then Ok (Some v) else Throw EConversion
      else if sm_contains (str "Parent") m then
        do v <- dict_find m (str "Parent");;
        match target v with
        | ODict pm => do u <- page_object pm;; inheritable_resources f pm
        | _ => Throw EConversion
        end
      else Ok None
  end.

(** DocumentInfo::Title, Author, Subject, Keywords, Creator and Producer, document_info.cpp:16-68 *)
Definition info_get (k : bytes) (m : smap obj) : res (option bytes) :=
  if sm_contains k m then
    do v <- dict_find m k;;
    match target v with OLit s | OHex s => Ok (Some s) | _ => Throw EConversion end
  else Ok None.

(** DocumentInfo::SetTitle and the other setters, document_info.cpp:147-177: Insert with its default, no overwriting *)
Definition info_set (k : bytes) (v : obj) (m : smap obj) : res (smap obj) := dict_insert m k v false.

(** std::toupper in the C locale; MiscUtils::CaseInsensitiveCompare, misc_utils.cpp:338-348 *)
Definition to_upper (c : N) : N := if (97 <=? c) && (c <=? 122) then c - 32 else c.
Definition same_letters (a b : bytes) : bool := beq (map to_upper a) (map to_upper b).

Inductive trapped : Type := TUnknown | TTrue | TFalse.
Definition trapped_name (t : trapped) : bytes :=
  match t with TUnknown => str "Unknown" | TTrue => str "True" | TFalse => str "False" end.

(** DocumentInfo::Trapped, document_info.cpp:100-145; the assert at its end is compiled out *)
Definition info_trapped (m : smap obj) : res (option trapped) :=
  if sm_contains (str "Trapped") m then
    do v <- dict_find m (str "Trapped");;
    let text := match target v with OName s | OLit s | OHex s => s | _ => [] end in
    Ok (if same_letters text (str "True") then Some TTrue
        else if same_letters text (str "False") then Some TFalse
        else if same_letters text (str "Unknown") then Some TUnknown
        else None)
  else Ok None.

(** DocumentInfo::SetTrapped, document_info.cpp:179-198 *)
Definition info_set_trapped (t : trapped) (m : smap obj) : res (smap obj) := info_set (str "Trapped") (OName (trapped_name t)) m.
End Views.

(** PageRange::PageRange, GetSize and At, viewer_preferences.cpp:16-37, of the array of page numbers *)
Definition page_range (l : list Z) : res (list Z) := if Nat.odd (List.length l) then Throw EGeneral else Ok l.
Definition sub_ranges (l : list Z) : N := N.of_nat (List.length l) / 2.
Definition sub_range (l : list Z) (at_ : N) : res (Z * Z) :=
  do a <- arr_get l at_;;
  do b <- arr_get l (at_ + 1);;
  Ok (a, b).

(** A full save without a license: FileWriter::Write (syntax/files/file_writer.cpp:34-86) from ApplyWatermark (68) on, for the one table
    that CompressAndOptimize leaves (Model/Save.v).  The mark itself is Model/Watermark.v.
    Simplifications: those of Model/Watermark.v; a stream that is not marked keeps its data; the document is not encrypted. *)
From Coq Require Import List NArith ZArith Bool String.
From Verif.Model Require Import Base SMap Object Equality Token Xref Header FileWrite Chain Merge Update Watermark.
Import ListNotations.
Local Open Scope N_scope.

(** the object a reference leads to: XrefChain::GetXrefEntry for the only section, and the object of the entry; File::GetIndirectObject,
    file.cpp:804-901, gives null for the others *)
Definition item_object (items : list (xentry * obj)) (n g : N) : obj :=
  match find (fun p => match xdata (fst p) with KUsed _ true => (xnum (fst p) =? n) && (xgen (fst p) =? g) | _ => false end) items with
  | Some p => snd p
  | None => ONull
  end.
(** the dictionary of AddWatermarkFont, file_writer.cpp:1574-1578 *)
Definition helvetica : obj :=
  ODict [(str "BaseFont", OName (str "Helvetica")); (str "Subtype", OName (str "Type1")); (str "Type", OName (str "Font"))].
(** the table of the document that is written *)
Definition table_of (items : list (xentry * obj)) : section :=
  {| s_kind := STable; s_entries := map fst items; s_hybrid := None; s_trailer := [] |}.

Section MarkedSave.
Variable real : bool -> N -> N -> dbl.
Variable text image : bytes.
(** StreamObject::GetBody (stream_object.cpp:204-308) and GetBodyEncoded (310-430) *)
Variable decode encode : list (bytes * obj) -> bytes -> res bytes.

Definition document_of (items : list (xentry * obj)) : doc :=
  {| d_objects := item_object items;
     d_bodies := fun n g =>
       match item_object items n g with
       | OStream m data => match decode m data with Ok b => b | _ => [] end
       | _ => []
       end |}.
(** the checks of ApplyWatermark, file_writer.cpp:1540-1564: Kids of Pages of Root is there *)
Definition has_kids (d : doc) (trailer : list (bytes * obj)) : bool :=
  match sm_find (str "Root") trailer with
  | Some r =>
      match target d r with
      | ODict root =>
          match sm_find (str "Pages") root with
          | Some p => match target d p with ODict pages => sm_contains (str "Kids") pages | _ => false end
          | None => false
          end
      | _ => false
      end
  | None => false
  end.
(** an entry as it is written: GetBody throws for a body that cannot be decoded (1667, 1773), GetBodyEncoded encodes what is there then *)
Definition mark_item (d d' : doc) (p : xentry * obj) : res (xentry * obj) :=
  if entry_in_use (fst p) then
    let n := xnum (fst p) in let g := xgen (fst p) in
    match snd p with
    | OStream m data =>
        if bytes_eqb (d_bodies d n g) (d_bodies d' n g) then Ok p
        else do _ <- decode m data;; do x <- encode m (d_bodies d' n g);; Ok (fst p, OStream m x)
    | _ => Ok (fst p, d_objects d' n g)
    end
  else Ok p.
Fixpoint mark_items (d d' : doc) (l : list (xentry * obj)) : res (list (xentry * obj)) :=
  match l with
  | [] => Ok []
  | p :: r => do q <- mark_item d d' p;; do s <- mark_items d d' r;; Ok (q :: s)
  end.
(** file_writer.cpp:68-71, with AddWatermarkFont 1572-1585: the destination has allocated nothing before (file.h:150).  Without Kids no
    font is made, and ApplyWatermark throws or does nothing *)
Definition write_marked (fuel : nat) (v : version) (items : list (xentry * obj)) (trailer : list (bytes * obj)) : res bytes :=
  if has_kids (document_of items) trailer then
    do '(i, _) <- allocate_from (S (List.length items)) 0 [table_of items];;
    let items1 := padd (new_entry i, helvetica) items in
    let d1 := document_of items1 in
    do d2 <- apply_watermark real (i, 0) text image fuel d1 trailer;;
    do items2 <- mark_items d1 d2 items1;;
    write_tables v [(items2, trailer)]
  else
    do _ <- apply_watermark real (0, 0) text image fuel (document_of items) trailer;;
    write_tables v [(items, trailer)].
End MarkedSave.

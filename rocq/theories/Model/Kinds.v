(** Which kind of object a dictionary is taken for: annotations, fonts, form fields, destinations; the named values of the catalog and
    of the viewer preferences; links and outlines; byte ranges of a signature.

    References are followed by [target] as in Model/Entries.v (an indirect object is not itself a reference).  The constants of
    name_constants.cpp:30-35 have their identifier as text (DECLARE_CONST_NAME). *)
From Coq Require Import List NArith ZArith Bool String.
From Coq Require Import List.
From Verif.Model Require Import Base SMap Object Containers Entries.
Import ListNotations.
Local Open Scope N_scope.

(** a chain of comparisons with name constants; NameObject::operator==, name_object.cpp *)
Fixpoint compare_names {K : Type} (l : list (bytes * K)) (n : bytes) : option K :=
  match l with
  | [] => None
  | (c, k) :: r => if beq n c then Some k else compare_names r n
  end.

(** annotations.h:14-42 *)
Inductive annotation : Type :=
| AnText | AnLink | AnFreeText | AnLine | AnSquare | AnCircle | AnPolygon | AnPolyLine | AnHighlight | AnUnderline | AnSquiggly
| AnStrikeOut | AnRubberStamp | AnCaret | AnInk | AnPopup | AnFileAttachment | AnSound | AnMovie | AnWidget | AnScreen | AnPrinterMark
| AnTrapNetwork | AnWatermark | AnTripleD | AnRedaction.
(** font.h:22-31 *)
Inductive font : Type := FoType0 | FoType1 | FoMMType1 | FoType3 | FoTrueType | FoCIDFontType0 | FoCIDFontType2.
(** fields.h:20-27 *)
Inductive field : Type := FiNonTerminal | FiButton | FiText | FiChoice | FiSignature.
(** destinations.h:14-24 *)
Inductive destination : Type := DeXYZ | DeFit | DeFitH | DeFitV | DeFitR | DeFitB | DeFitBH | DeFitBV.

Section Kinds.
Variable heap : N -> obj.
Notation target := (target heap).

(** the check of the optional Type entry, annotations.cpp:60-70 and font.cpp:39-49 *)
Definition type_is (d : smap obj) (n : bytes) : res unit :=
  match sm_find (str "Type") d with
  | None => Ok tt
  | Some v => match target v with OName m => if beq m n then Ok tt else Throw EGeneral | _ => Throw EGeneral end
  end.
(** the required name, annotations.cpp:72-82 and font.cpp:51-61 *)
Definition required_name (d : smap obj) (k : bytes) : res bytes :=
  match sm_find k d with
  | None => Throw EGeneral
  | Some v => match target v with OName m => Ok m | _ => Throw EGeneral end
  end.

(** AnnotationBase::Create, annotations.cpp:58-186, and GetAnnotationType, annotations.h:217-242 *)
Definition annotation_kind (d : smap obj) : res annotation :=
  do _ <- type_is d (str "Annot");;
  do n <- required_name d (str "Subtype");;
  match compare_names
    [(str "Text", AnText); (str "Link", AnLink); (str "FreeText", AnFreeText); (str "Line", AnLine); (str "Square", AnSquare);
     (str "Circle", AnCircle); (str "Polygon", AnPolygon); (str "PolyLine", AnPolyLine); (str "Highlight", AnHighlight);
     (str "Underline", AnUnderline); (str "Squiggly", AnSquiggly); (str "StrikeOut", AnStrikeOut); (str "RubberStamp", AnRubberStamp);
     (str "Caret", AnCaret); (str "Ink", AnInk); (str "Popup", AnPopup); (str "FileAttachment", AnFileAttachment);
     (str "Sound", AnSound); (str "Movie", AnMovie); (str "Widget", AnWidget); (str "Screen", AnScreen);
     (str "PrinterMark", AnPrinterMark); (str "TrapNetwork", AnTrapNetwork); (str "Watermark", AnWatermark);
     (str "TripleD", AnTripleD); (str "Redact", AnRedaction)] n with
  | Some k => Ok k
  | None => Throw EGeneral
  end.

(** FontBase::Create, font.cpp:37-99 *)
Definition font_kind (d : smap obj) : res font :=
  do _ <- type_is d (str "Font");;
  do n <- required_name d (str "Subtype");;
  match compare_names
    [(str "Type0", FoType0); (str "Type1", FoType1); (str "MMType1", FoMMType1); (str "Type3", FoType3); (str "TrueType", FoTrueType);
     (str "CIDFontType0", FoCIDFontType0); (str "CIDFontType2", FoCIDFontType2)] n with
  | Some k => Ok k
  | None => Throw EGeneral
  end.

(** Field::Create, fields.cpp:18-47 *)
Definition field_kind (d : smap obj) : res field :=
  match sm_find (str "FT") d with
  | None => Ok FiNonTerminal
  | Some v =>
      match target v with
      | OName n =>
          match compare_names [(str "Btn", FiButton); (str "Tx", FiText); (str "Ch", FiChoice); (str "Sig", FiSignature)] n with
          | Some k => Ok k
          | None => Throw EGeneral
          end
      | _ => Throw EGeneral
      end
  end.

(** DestinationBase::Create of an array, destinations.cpp:58-113 *)
Definition is_ref (v : obj) : bool := match v with ORef _ _ => true | _ => false end.
Definition destination_array (l : list obj) : res (destination * obj) :=
  match l with
  | page :: kind :: _ =>
      if negb (is_number heap page) && negb (is_ref page) then Throw EGeneral
      else
        match target kind with
        | OName n =>
            match compare_names
              [(str "XYZ", DeXYZ); (str "Fit", DeFit); (str "FitH", DeFitH); (str "FitV", DeFitV); (str "FitR", DeFitR);
               (str "FitB", DeFitB); (str "FitBH", DeFitBH); (str "FitBV", DeFitBV)] n with
            | Some k => Ok (k, page)   (* GetPage, 192-206: the first element as it stands *)
            | None => Throw EGeneral
            end
        | _ => Throw EGeneral
        end
  | _ => Throw EGeneral
  end.
(** of an object or a dictionary, 43-56 and 115-171 *)
Definition destination_of (v : obj) : res (destination * obj) :=
  match target v with
  | OArr l => destination_array l
  | ODict d =>
      match sm_find (str "D") d with
      | None => Throw EGeneral
      | Some w => match target w with OArr l => destination_array l | _ => Throw EConversion end
      end
  | _ => Throw EGeneral
  end.

(** NamedDestinations::Insert, Contains and Find, destinations.cpp:208-245; [v] is a reference to the object or the object itself *)
Definition named_insert (m : smap obj) (n : bytes) (v : obj) : res (smap obj) := put_entry n v m.
Definition named_find (m : smap obj) (n : bytes) : res (destination * obj) :=
  match sm_find n m with None => Throw EGeneral | Some v => destination_of v end.

(** FindAs<DictionaryObjectPtr> *)
Definition dict_entry (d : smap obj) (k : bytes) : res (smap obj) :=
  match sm_find k d with
  | None => Throw EGeneral
  | Some v => match target v with ODict e => Ok e | _ => Throw EConversion end
  end.

(** LinkAnnotation::Destination, annotations.cpp:188-280.  The document of the file is open, [catalog] is the dictionary of its
    catalog; name trees (Model/Tree.v) are a parameter: the value under a key of the tree with this root. *)
Variable catalog : smap obj.
Variable tree_find : smap obj -> bytes -> res (option obj).
Definition link_destination (d : smap obj) : res (option (destination * obj)) :=
  match sm_find (str "Dest") d with
  | None => Ok None
  | Some v =>
      match target v with
      | OArr _ | ODict _ => do x <- destination_of v;; Ok (Some x)
      | OLit s | OHex s =>
          if negb (sm_contains (str "Names") catalog) then Ok None
          else
            do names <- dict_entry catalog (str "Names");;
            if negb (sm_contains (str "Dests") names) then Ok None
            else
              do tree <- dict_entry names (str "Dests");;
              do found <- tree_find tree s;;
              match found with
              | None => Ok None
              | Some w => do x <- destination_of w;; Ok (Some x)
              end
      | OName n =>
          if negb (sm_contains (str "Dests") catalog) then Ok None
          else
            do dests <- dict_entry catalog (str "Dests");;
            if negb (sm_contains n dests) then Ok None
            else do x <- named_find dests n;; Ok (Some x)
      | _ => Throw EGeneral
      end
  end.

(** Catalog::PageLayout and PageMode, catalog.cpp:76-101, 146-171; ViewerPreferences::NonFullScreenPageMode, Direction, PrintScaling and
    Duplex, viewer_preferences.cpp:93-132, 170-212.  The values are the enumerators in their order. *)
Definition named_value (table : list (bytes * N)) (k : bytes) (d : smap obj) : res (option N) :=
  match sm_find k d with
  | None => Ok None
  | Some v =>
      match target v with
      | OName n => match compare_names table n with Some x => Ok (Some x) | None => Throw EGeneral end
      | _ => Throw EConversion
      end
  end.
Definition page_layout : smap obj -> res (option N) := named_value
  [(str "SinglePage", 1); (str "OneColumn", 2); (str "TwoColumnLeft", 3); (str "TwoColumnRight", 4); (str "TwoPageLeft", 5); (str "TwoPageRight", 6)]
  (str "PageLayout").
Definition page_mode : smap obj -> res (option N) := named_value
  [(str "UseNone", 1); (str "UseOutlines", 2); (str "UseThumbs", 3); (str "FullScreen", 4); (str "UseOC", 5); (str "UseAttachments", 6)]
  (str "PageMode").
Definition non_full_screen : smap obj -> res (option N) := named_value
  [(str "UseNone", 1); (str "UseOutlines", 2); (str "UseThumbs", 3); (str "UseOC", 4)] (str "NonFullScreenPageMode").
Definition direction : smap obj -> res (option N) := named_value [(str "L2R", 1); (str "R2L", 2)] (str "Direction").
Definition print_scaling : smap obj -> res (option N) := named_value [(str "AppDefault", 1); (str "None", 2)] (str "PrintScaling").
Definition duplex : smap obj -> res (option N) := named_value
  [(str "Simplex", 1); (str "DuplexFlipShortEdge", 2); (str "DuplexFlipLongEdge", 3)] (str "Duplex").

(** OutlineItem::Title, Parent, Prev, Next, First, Last, outline.cpp:24-72, and Outline::First, Last, 103-121.  An item is the
    dictionary it was made from. *)
Inductive outline_type : Type := OtOutline | OtItem.
Definition outline_link (k : bytes) (d : smap obj) : res (option (smap obj)) :=
  match sm_find k d with
  | None => Ok None
  | Some v => match target v with ODict e => Ok (Some e) | _ => Throw EConversion end
  end.
Definition outline_title (d : smap obj) : res bytes :=
  match sm_find (str "Title") d with
  | None => Throw EGeneral
  | Some v => match target v with OLit s | OHex s => Ok s | _ => Throw EConversion end
  end.
(** 28-31: always an Outline *)
Definition outline_parent (d : smap obj) : res (outline_type * smap obj) :=
  do e <- dict_entry d (str "Parent");; Ok (OtOutline, e).
(** OutlineItem::Flags, 93-101 and 135-136 *)
Definition outline_italic (v : Z) : bool := negb (Z.land v 1 =? 0)%Z.
Definition outline_bold (v : Z) : bool := negb (Z.land v 2 =? 0)%Z.
(** a caller going through the items of one level *)
Fixpoint titles (fuel : nat) (item : option (smap obj)) : res (list bytes) :=
  match fuel with
  | O => NoFuel
  | S f =>
      match item with
      | None => Ok []
      | Some d =>
          do t <- outline_title d;;
          do n <- outline_link (str "Next") d;;
          do r <- titles f n;;
          Ok (t :: r)
      end
  end.
End Kinds.

(** ByteRangeCollection: constructor, GetSize and GetValue, digital_signature.cpp:12-17, 32-38 *)
Definition byte_ranges (l : list Z) : res (list Z) := if Nat.even (List.length l) then Ok l else Throw EGeneral.
Definition byte_range_count (l : list Z) : nat := Nat.div2 (List.length l).
Definition byte_range_at (l : list Z) (i : nat) : res (Z * Z) :=
  match nth_error l i, nth_error l (S i) with
  | Some a, Some b => Ok (a, b)
  | _, _ => Throw EStdRange
  end.

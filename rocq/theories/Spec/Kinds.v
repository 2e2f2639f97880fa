(** The tables of ISO 32000-1 for kinds of objects and named values. *)
From Coq Require Import List NArith ZArith Bool String.
From Coq Require Import List.
From Verif.Model Require Import Base SMap Object Entries Kinds.
Import ListNotations.
Local Open Scope N_scope.

(** Table 169 *)
Inductive iso_annotation : bytes -> annotation -> Prop :=
| ia_text : iso_annotation (str "Text") AnText
| ia_link : iso_annotation (str "Link") AnLink
| ia_freetext : iso_annotation (str "FreeText") AnFreeText
| ia_line : iso_annotation (str "Line") AnLine
| ia_square : iso_annotation (str "Square") AnSquare
| ia_circle : iso_annotation (str "Circle") AnCircle
| ia_polygon : iso_annotation (str "Polygon") AnPolygon
| ia_polyline : iso_annotation (str "PolyLine") AnPolyLine
| ia_highlight : iso_annotation (str "Highlight") AnHighlight
| ia_underline : iso_annotation (str "Underline") AnUnderline
| ia_squiggly : iso_annotation (str "Squiggly") AnSquiggly
| ia_strikeout : iso_annotation (str "StrikeOut") AnStrikeOut
| ia_stamp : iso_annotation (str "Stamp") AnRubberStamp
| ia_caret : iso_annotation (str "Caret") AnCaret
| ia_ink : iso_annotation (str "Ink") AnInk
| ia_popup : iso_annotation (str "Popup") AnPopup
| ia_file : iso_annotation (str "FileAttachment") AnFileAttachment
| ia_sound : iso_annotation (str "Sound") AnSound
| ia_movie : iso_annotation (str "Movie") AnMovie
| ia_widget : iso_annotation (str "Widget") AnWidget
| ia_screen : iso_annotation (str "Screen") AnScreen
| ia_printermark : iso_annotation (str "PrinterMark") AnPrinterMark
| ia_trapnet : iso_annotation (str "TrapNet") AnTrapNetwork
| ia_watermark : iso_annotation (str "Watermark") AnWatermark
| ia_3d : iso_annotation (str "3D") AnTripleD
| ia_redact : iso_annotation (str "Redact") AnRedaction.
(** the three whose name differs from the C++ identifier *)
Definition renamed : list bytes := [str "Stamp"; str "TrapNet"; str "3D"].

(** Tables 110 and 117 *)
Inductive iso_font : bytes -> font -> Prop :=
| if_0 : iso_font (str "Type0") FoType0
| if_1 : iso_font (str "Type1") FoType1
| if_mm : iso_font (str "MMType1") FoMMType1
| if_3 : iso_font (str "Type3") FoType3
| if_tt : iso_font (str "TrueType") FoTrueType
| if_c0 : iso_font (str "CIDFontType0") FoCIDFontType0
| if_c2 : iso_font (str "CIDFontType2") FoCIDFontType2.

(** Table 220 *)
Inductive iso_field : bytes -> field -> Prop :=
| ifi_btn : iso_field (str "Btn") FiButton
| ifi_tx : iso_field (str "Tx") FiText
| ifi_ch : iso_field (str "Ch") FiChoice
| ifi_sig : iso_field (str "Sig") FiSignature.

(** Table 151 *)
Inductive iso_destination : bytes -> destination -> Prop :=
| id_xyz : iso_destination (str "XYZ") DeXYZ
| id_fit : iso_destination (str "Fit") DeFit
| id_fith : iso_destination (str "FitH") DeFitH
| id_fitv : iso_destination (str "FitV") DeFitV
| id_fitr : iso_destination (str "FitR") DeFitR
| id_fitb : iso_destination (str "FitB") DeFitB
| id_fitbh : iso_destination (str "FitBH") DeFitBH
| id_fitbv : iso_destination (str "FitBV") DeFitBV.

(** Tables 28 and 150: the values of an entry in the order of the enumerations of the C interface *)
Definition iso_page_layout := map str ["SinglePage"; "OneColumn"; "TwoColumnLeft"; "TwoColumnRight"; "TwoPageLeft"; "TwoPageRight"]%string.
Definition iso_page_mode := map str ["UseNone"; "UseOutlines"; "UseThumbs"; "FullScreen"; "UseOC"; "UseAttachments"]%string.
Definition iso_non_full_screen := map str ["UseNone"; "UseOutlines"; "UseThumbs"; "UseOC"]%string.
Definition iso_direction := map str ["L2R"; "R2L"]%string.
Definition iso_print_scaling := map str ["AppDefault"; "None"]%string.
Definition iso_duplex := map str ["Simplex"; "DuplexFlipShortEdge"; "DuplexFlipLongEdge"]%string.

Section S.
Variable heap : N -> obj.
(** the object a value stands for, and the entry of a dictionary *)
Definition stands_for (v : obj) : obj := match v with ORef n _ => heap n | _ => v end.
Definition entry_is (d : smap obj) (k : bytes) (o : obj) : Prop := exists v, sm_find k d = Some v /\ stands_for v = o.
Definition of_type (d : smap obj) (n : bytes) : Prop := sm_find (str "Type") d = None \/ entry_is d (str "Type") (OName n).

(** the type of a field, its own or that of the nearest ancestor that has one (12.7.3.1: FT is inheritable) *)
Inductive field_type : smap obj -> bytes -> Prop :=
| ft_own : forall d n, entry_is d (str "FT") (OName n) -> field_type d n
| ft_parent : forall d p n, sm_find (str "FT") d = None -> entry_is d (str "Parent") (ODict p) -> field_type p n -> field_type d n.

(** an explicit destination: a page (a reference, or a number for remote documents) and its kind; alone or as entry D of a dictionary *)
Definition explicit (o : obj) (k : destination) (page : obj) : Prop :=
  exists kind n rest, o = OArr (page :: kind :: rest) /\ stands_for kind = OName n /\ iso_destination n k /\
    ((exists i g, page = ORef i g) \/ exists i, page = OInt i).
Definition leads_to (v : obj) (k : destination) (page : obj) : Prop :=
  explicit (stands_for v) k page \/ exists d o, stands_for v = ODict d /\ entry_is d (str "D") o /\ explicit o k page.

(** the value of an entry is the i-th (from one) of the names *)
Definition value_is (names : list bytes) (k : bytes) (d : smap obj) (i : N) : Prop :=
  exists n, entry_is d k (OName n) /\ (0 < i) /\ nth_error names (N.to_nat (i - 1)) = Some n.

(** one level of an outline: items linked by Next *)
Inductive level : option (smap obj) -> list bytes -> Prop :=
| lv_end : level None []
| lv_last : forall d t, (entry_is d (str "Title") (OLit t) \/ entry_is d (str "Title") (OHex t)) -> sm_find (str "Next") d = None -> level (Some d) [t]
| lv_next : forall d t e r, (entry_is d (str "Title") (OLit t) \/ entry_is d (str "Title") (OHex t)) -> entry_is d (str "Next") (ODict e) ->
    level (Some e) r -> level (Some d) (t :: r).
End S.

(** the numbers two by two *)
Fixpoint in_pairs (l : list Z) : list (Z * Z) :=
  match l with
  | a :: b :: r => (a, b) :: in_pairs r
  | _ => []
  end.

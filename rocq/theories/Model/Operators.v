(** Operators and operations of content streams as a program sees them: which operation a word becomes, what its type and its operator
    are, what its operands are.  Model/Content.v keeps the word in the place of the operator; here the tables of the code are followed. *)
From Coq Require Import List NArith ZArith Bool String.
From Coq Require Import List.
From Verif.Model Require Import Base Char Numbers SMap Object Token Parser Content.
Import ListNotations.
Local Open Scope N_scope.

Fixpoint of_word {A} (w : bytes) (l : list (bytes * A)) : option A :=
  match l with [] => None | (k, v) :: t => if bytes_eqb k w then Some v else of_word w t end.
Fixpoint of_name {A} (n : string) (l : list (string * A)) : option A :=
  match l with [] => None | (k, v) :: t => if String.eqb k n then Some v else of_name n t end.

(** ContentStreamTokenDictionary::Initialize, token_dictionary.cpp:224-305 with the texts of 59-132: the token type of a word *)
Definition token_types : list (bytes * string) :=
  [(str "w", "LINE_WIDTH"); (str "J", "LINE_CAP"); (str "j", "LINE_JOIN"); (str "M", "MITER_LIMIT"); (str "d", "DASH_PATTERN");
   (str "ri", "COLOR_RENDERING_INTENT"); (str "i", "FLATNESS"); (str "gs", "GRAPHICS_STATE"); (str "q", "SAVE_GRAPHICS_STATE");
   (str "Q", "RESTORE_GRAPHIC_STATE"); (str "cm", "TRANSFORMATION_MATRIX"); (str "m", "BEGIN_SUBPATH"); (str "l", "LINE");
   (str "c", "FULL_CURVE"); (str "v", "FINAL_CURVE"); (str "y", "INITIAL_CURVE"); (str "h", "CLOSE_SUBPATH"); (str "re", "RECTANGLE");
   (str "S", "STROKE"); (str "s", "CLOSE_AND_STROKE"); (str "f", "FILL_PATH_NONZERO"); (str "F", "FILL_PATH_COMPATIBILITY");
   (str "f*", "FILL_PATH_EVEN_ODD"); (str "B", "FILL_STROKE_NONZERO"); (str "B*", "FILL_STROKE_EVEN_ODD");
   (str "b", "CLOSE_FILL_STROKE_NONZERO"); (str "b*", "CLOSE_FILL_STROKE_EVEN_ODD"); (str "n", "END_PATH");
   (str "W", "CLIP_PATH_NONZERO"); (str "W*", "CLIP_PATH_EVEN_ODD"); (str "BT", "BEGIN_TEXT"); (str "ET", "END_TEXT");
   (str "Tc", "CHARACTER_SPACING"); (str "Tw", "WORD_SPACING"); (str "Tz", "HORIZONTAL_SCALING"); (str "TL", "LEADING");
   (str "Tf", "TEXT_FONT"); (str "Tr", "TEXT_RENDERING_MODE"); (str "Ts", "TEXT_RISE"); (str "Td", "TEXT_TRANSLATE");
   (str "TD", "TEXT_TRANSLATE_LEADING"); (str "Tm", "TEXT_MATRIX"); (str "T*", "TEXT_NEXT_LINE"); (str "Tj", "TEXT_SHOW");
   (str "TJ", "TEXT_SHOW_ARRAY"); (str "'", "TEXT_NEXT_LINE_SHOW"); (str """", "TEXT_NEXT_LINE_SHOW_SPACING");
   (str "d0", "SET_CHAR_WIDTH"); (str "d1", "SET_CACHE_DEVICE"); (str "CS", "SET_STROKING_COLOR_SPACE_NAME");
   (str "cs", "SET_NONSTROKING_COLOR_SPACE_NAME"); (str "SC", "SET_STROKING_COLOR_SPACE_DEVICE");
   (str "SCN", "SET_STROKING_COLOR_SPACE_DEVICE_EXTENDED"); (str "sc", "SET_NONSTROKING_COLOR_SPACE_DEVICE");
   (str "scn", "SET_NONSTROKING_COLOR_SPACE_DEVICE_EXTENDED"); (str "G", "SET_STROKING_COLOR_SPACE_GRAY");
   (str "g", "SET_NONSTROKING_COLOR_SPACE_GRAY"); (str "RG", "SET_STROKING_COLOR_SPACE_RGB");
   (str "rg", "SET_NONSTROKING_COLOR_SPACE_RGB"); (str "K", "SET_STROKING_COLOR_SPACE_CMYK");
   (str "k", "SET_NONSTROKING_COLOR_SPACE_CMYK"); (str "sh", "SHADING_PAINT"); (str "BI", "BEGIN_INLINE_IMAGE_OBJECT");
   (str "ID", "BEGIN_INLINE_IMAGE_DATA"); (str "EI", "END_INLINE_IMAGE_OBJECT"); (str "Do", "INVOKE_X_OBJECT");
   (str "MP", "DEFINE_MARKED_CONTENT_POINT"); (str "DP", "DEFINE_MARKED_CONTENT_POINT_WITH_PROPERTY_LIST");
   (str "BMC", "BEGIN_MARKED_CONTENT_SEQUENCE"); (str "BDC", "BEGIN_MARKED_CONTENT_SEQUENCE_WITH_PROPERTY_LIST");
   (str "EMC", "END_MARKED_CONTENT_SEQUENCE"); (str "BX", "BEGIN_COMPATIBILITY_SECTION"); (str "EX", "END_COMPATIBILITY_SECTION")]%string.
(** ContentStreamParser::ReadOperatorReturnOperation, content_stream_parser.cpp:222-376: the operator of the token types that become an
    OperationGeneric *)
Definition generic_operators : list (string * string) :=
  [("LINE_WIDTH", "LineWidth"); ("LINE_CAP", "LineCap"); ("LINE_JOIN", "LineJoin"); ("MITER_LIMIT", "MiterLimit");
   ("DASH_PATTERN", "DashPattern"); ("COLOR_RENDERING_INTENT", "ColorRenderingIntent"); ("FLATNESS", "Flatness");
   ("GRAPHICS_STATE", "GraphicsState"); ("SAVE_GRAPHICS_STATE", "SaveGraphicsState"); ("RESTORE_GRAPHIC_STATE", "RestoreGraphicsState");
   ("TRANSFORMATION_MATRIX", "TransformationMatrix"); ("BEGIN_SUBPATH", "BeginSubpath"); ("LINE", "Line"); ("FULL_CURVE", "FullCurve");
   ("FINAL_CURVE", "FinalCurve"); ("INITIAL_CURVE", "InitialCurve"); ("CLOSE_SUBPATH", "CloseSubpath"); ("RECTANGLE", "Rectangle");
   ("STROKE", "Stroke"); ("CLOSE_AND_STROKE", "CloseAndStroke"); ("FILL_PATH_NONZERO", "FillPathNonzero");
   ("FILL_PATH_COMPATIBILITY", "FillPathCompatibility"); ("FILL_PATH_EVEN_ODD", "FillPathEvenOdd");
   ("FILL_STROKE_NONZERO", "FillStrokeNonzero"); ("FILL_STROKE_EVEN_ODD", "FillStrokeEvenOdd");
   ("CLOSE_FILL_STROKE_NONZERO", "CloseFillStrokeNonzero"); ("CLOSE_FILL_STROKE_EVEN_ODD", "CloseFillStrokeEvenOdd");
   ("END_PATH", "EndPath"); ("CLIP_PATH_NONZERO", "ClipPathNonzero"); ("CLIP_PATH_EVEN_ODD", "ClipPathEvenOdd");
   ("CHARACTER_SPACING", "CharacterSpacing"); ("WORD_SPACING", "WordSpacing"); ("HORIZONTAL_SCALING", "HorizontalScaling");
   ("LEADING", "Leading"); ("TEXT_RENDERING_MODE", "TextRenderingMode"); ("TEXT_RISE", "TextRise"); ("TEXT_TRANSLATE", "TextTranslate");
   ("TEXT_TRANSLATE_LEADING", "TextTranslateLeading"); ("TEXT_MATRIX", "TextMatrix"); ("TEXT_NEXT_LINE", "TextNextLine");
   ("TEXT_NEXT_LINE_SHOW", "TextNextLineShow"); ("TEXT_NEXT_LINE_SHOW_SPACING", "TextNextLineShowSpacing");
   ("SET_CHAR_WIDTH", "SetCharWidth"); ("SET_CACHE_DEVICE", "SetCacheDevice");
   ("SET_STROKING_COLOR_SPACE_NAME", "SetStrokingColorSpaceName"); ("SET_NONSTROKING_COLOR_SPACE_NAME", "SetNonstrokingColorSpaceName");
   ("SET_STROKING_COLOR_SPACE_DEVICE", "SetStrokingColorSpaceDevice");
   ("SET_STROKING_COLOR_SPACE_DEVICE_EXTENDED", "SetStrokingColorSpaceDeviceExtended");
   ("SET_NONSTROKING_COLOR_SPACE_DEVICE", "SetNonstrokingColorSpaceDevice");
   ("SET_NONSTROKING_COLOR_SPACE_DEVICE_EXTENDED", "SetNonstrokingColorSpaceDeviceExtended");
   ("SET_STROKING_COLOR_SPACE_GRAY", "SetStrokingColorSpaceGray"); ("SET_NONSTROKING_COLOR_SPACE_GRAY", "SetNonstrokingColorSpaceGray");
   ("SET_STROKING_COLOR_SPACE_RGB", "SetStrokingColorSpaceRGB"); ("SET_NONSTROKING_COLOR_SPACE_RGB", "SetNonstrokingColorSpaceRGB");
   ("SET_STROKING_COLOR_SPACE_CMYK", "SetStrokingColorSpaceCMYK"); ("SET_NONSTROKING_COLOR_SPACE_CMYK", "SetNonstrokingColorSpaceCMYK");
   ("SHADING_PAINT", "ShadingPaint"); ("INVOKE_X_OBJECT", "InvokeXObject"); ("DEFINE_MARKED_CONTENT_POINT", "DefineMarkedContentPoint");
   ("DEFINE_MARKED_CONTENT_POINT_WITH_PROPERTY_LIST", "DefineMarkedContentPointWithPropertyList");
   ("BEGIN_MARKED_CONTENT_SEQUENCE", "BeginMarkedContentSequence");
   ("BEGIN_MARKED_CONTENT_SEQUENCE_WITH_PROPERTY_LIST", "BeginMarkedContentSequenceWithPropertyList");
   ("END_MARKED_CONTENT_SEQUENCE", "EndMarkedContentSequence"); ("BEGIN_COMPATIBILITY_SECTION", "BeginCompatibilitySection");
   ("END_COMPATIBILITY_SECTION", "EndCompatibilitySection")]%string.
(** the values of the operators, content_stream_operators.h:32-134 *)
Definition operator_values : list (string * bytes) :=
  [("LineWidth", str "w"); ("LineCap", str "J"); ("LineJoin", str "j"); ("MiterLimit", str "M"); ("DashPattern", str "d");
   ("ColorRenderingIntent", str "ri"); ("Flatness", str "i"); ("GraphicsState", str "gs"); ("SaveGraphicsState", str "q");
   ("RestoreGraphicsState", str "Q"); ("TransformationMatrix", str "cm"); ("BeginSubpath", str "m"); ("Line", str "l");
   ("FullCurve", str "c"); ("FinalCurve", str "v"); ("InitialCurve", str "y"); ("CloseSubpath", str "h"); ("Rectangle", str "re");
   ("Stroke", str "S"); ("CloseAndStroke", str "s"); ("FillPathNonzero", str "f"); ("FillPathCompatibility", str "F");
   ("FillPathEvenOdd", str "f*"); ("FillStrokeNonzero", str "B"); ("FillStrokeEvenOdd", str "B*"); ("CloseFillStrokeNonzero", str "b");
   ("CloseFillStrokeEvenOdd", str "b*"); ("EndPath", str "n"); ("ClipPathNonzero", str "W"); ("ClipPathEvenOdd", str "W*");
   ("BeginText", str "BT"); ("EndText", str "ET"); ("CharacterSpacing", str "Tc"); ("WordSpacing", str "Tw");
   ("HorizontalScaling", str "Tz"); ("Leading", str "TL"); ("TextFont", str "Tf"); ("TextRenderingMode", str "Tr");
   ("TextRise", str "Ts"); ("TextTranslate", str "Td"); ("TextTranslateLeading", str "TD"); ("TextMatrix", str "Tm");
   ("TextNextLine", str "T*"); ("TextShow", str "Tj"); ("TextShowArray", str "TJ"); ("TextNextLineShow", str "'");
   ("TextNextLineShowSpacing", str """"); ("SetCharWidth", str "d0"); ("SetCacheDevice", str "d1");
   ("SetStrokingColorSpaceName", str "CS"); ("SetNonstrokingColorSpaceName", str "cs"); ("SetStrokingColorSpaceDevice", str "SC");
   ("SetStrokingColorSpaceDeviceExtended", str "SCN"); ("SetNonstrokingColorSpaceDevice", str "sc");
   ("SetNonstrokingColorSpaceDeviceExtended", str "scn"); ("SetStrokingColorSpaceGray", str "G");
   ("SetNonstrokingColorSpaceGray", str "g"); ("SetStrokingColorSpaceRGB", str "RG"); ("SetNonstrokingColorSpaceRGB", str "rg");
   ("SetStrokingColorSpaceCMYK", str "K"); ("SetNonstrokingColorSpaceCMYK", str "k"); ("ShadingPaint", str "sh");
   ("BeginInlineImageObject", str "BI"); ("BeginInlineImageData", str "ID"); ("EndInlineImageObject", str "EI");
   ("InvokeXObject", str "Do"); ("DefineMarkedContentPoint", str "MP"); ("DefineMarkedContentPointWithPropertyList", str "DP");
   ("BeginMarkedContentSequence", str "BMC"); ("BeginMarkedContentSequenceWithPropertyList", str "BDC");
   ("EndMarkedContentSequence", str "EMC"); ("BeginCompatibilitySection", str "BX"); ("EndCompatibilitySection", str "EX")]%string.
(** ContentOperator_GetOperatorType, c_content_operator.cpp:11-171: OperatorBase::Type (the name of the operator class,
    content_stream_operators.h:23-29) and the value of ContentOperatorType *)
Definition operator_types : list (string * string) :=
  [("Unknown", "Unknown"); ("LineWidth", "LineWidth"); ("LineCap", "LineCap"); ("LineJoin", "LineJoin"); ("MiterLimit", "MiterLimit");
   ("DashPattern", "DashPattern"); ("ColorRenderingIntent", "ColorRenderingIntent"); ("Flatness", "Flatness");
   ("GraphicsState", "GraphicsState"); ("SaveGraphicsState", "SaveGraphicsState"); ("RestoreGraphicsState", "RestoreGraphicsState");
   ("TransformationMatrix", "TransformationMatrix"); ("BeginSubpath", "BeginSubpath"); ("Line", "Line"); ("FullCurve", "FullCurve");
   ("FinalCurve", "FinalCurve"); ("InitialCurve", "InitialCurve"); ("CloseSubpath", "CloseSubpath"); ("Rectangle", "Rectangle");
   ("Stroke", "Stroke"); ("CloseAndStroke", "CloseAndStroke"); ("FillPathNonzero", "FillPathNonzero");
   ("FillPathCompatibility", "FillPathCompatibility"); ("FillPathEvenOdd", "FillPathEvenOdd");
   ("FillStrokeNonzero", "FillStrokeNonzero"); ("FillStrokeEvenOdd", "FillStrokeEvenOdd");
   ("CloseFillStrokeNonzero", "CloseFillStrokeNonzero"); ("CloseFillStrokeEvenOdd", "CloseFillStrokeEvenOdd"); ("EndPath", "EndPath");
   ("ClipPathNonzero", "ClipPathNonzero"); ("ClipPathEvenOdd", "ClipPathEvenOdd"); ("BeginText", "BeginText"); ("EndText", "EndText");
   ("CharacterSpacing", "CharacterSpacing"); ("WordSpacing", "WordSpacing"); ("HorizontalScaling", "HorizontalScaling");
   ("Leading", "Leading"); ("TextFont", "TextFont"); ("TextRenderingMode", "TextRenderingMode"); ("TextRise", "TextRise");
   ("TextTranslate", "TextTranslate"); ("TextTranslateLeading", "TextTranslateLeading"); ("TextMatrix", "TextMatrix");
   ("TextNextLine", "TextNextLine"); ("TextShow", "TextShow"); ("TextShowArray", "TextShowArray");
   ("TextNextLineShow", "TextNextLineShow"); ("TextNextLineShowSpacing", "TextNextLineShowSpacing"); ("SetCharWidth", "SetCharWidth");
   ("SetCacheDevice", "SetCacheDevice"); ("SetStrokingColorSpaceName", "SetStrokingColorSpaceName");
   ("SetNonstrokingColorSpaceName", "SetNonstrokingColorSpaceName"); ("SetStrokingColorSpaceDevice", "SetStrokingColorSpaceDevice");
   ("SetStrokingColorSpaceDeviceExtended", "SetStrokingColorSpaceDeviceExtended");
   ("SetNonstrokingColorSpaceDevice", "SetNonstrokingColorSpaceDevice");
   ("SetNonstrokingColorSpaceDeviceExtended", "SetNonstrokingColorSpaceDeviceExtended");
   ("SetStrokingColorSpaceGray", "SetStrokingColorSpaceGray"); ("SetNonstrokingColorSpaceGray", "SetNonstrokingColorSpaceGray");
   ("SetStrokingColorSpaceRGB", "SetStrokingColorSpaceRGB"); ("SetNonstrokingColorSpaceRGB", "SetNonstrokingColorSpaceRGB");
   ("SetStrokingColorSpaceCMYK", "SetStrokingColorSpaceCMYK"); ("SetNonstrokingColorSpaceCMYK", "SetNonstrokingColorSpaceCMYK");
   ("ShadingPaint", "ShadingPaint"); ("BeginInlineImageObject", "BeginInlineImageObject");
   ("BeginInlineImageData", "BeginInlineImageData"); ("EndInlineImageObject", "EndInlineImageObject");
   ("InvokeXObject", "InvokeXObject"); ("DefineMarkedContentPoint", "DefineMarkedContentPoint");
   ("DefineMarkedContentPointWithPropertyList", "DefineMarkedContentPointWithPropertyList");
   ("BeginMarkedContentSequence", "BeginMarkedContentSequence");
   ("BeginMarkedContentSequenceWithPropertyList", "BeginMarkedContentSequenceWithPropertyList");
   ("EndMarkedContentSequence", "EndMarkedContentSequence"); ("BeginCompatibilitySection", "BeginCompatibilitySection");
   ("EndCompatibilitySection", "EndCompatibilitySection")]%string.
(** ContentOperation_GetOperationType, c_content_operation.cpp:13-173 *)
Definition operation_types : list (string * string) :=
  [("Generic", "Generic"); ("LineWidth", "LineWidth"); ("LineCap", "LineCap"); ("LineJoin", "LineJoin"); ("MiterLimit", "MiterLimit");
   ("DashPattern", "DashPattern"); ("ColorRenderingIntent", "ColorRenderingIntent"); ("Flatness", "Flatness");
   ("GraphicsState", "GraphicsState"); ("SaveGraphicsState", "SaveGraphicsState"); ("RestoreGraphicsState", "RestoreGraphicsState");
   ("TransformationMatrix", "TransformationMatrix"); ("BeginSubpath", "BeginSubpath"); ("Line", "Line"); ("FullCurve", "FullCurve");
   ("FinalCurve", "FinalCurve"); ("InitialCurve", "InitialCurve"); ("CloseSubpath", "CloseSubpath"); ("Rectangle", "Rectangle");
   ("Stroke", "Stroke"); ("CloseAndStroke", "CloseAndStroke"); ("FillPathNonzero", "FillPathNonzero");
   ("FillPathCompatibility", "FillPathCompatibility"); ("FillPathEvenOdd", "FillPathEvenOdd");
   ("FillStrokeNonzero", "FillStrokeNonzero"); ("FillStrokeEvenOdd", "FillStrokeEvenOdd");
   ("CloseFillStrokeNonzero", "CloseFillStrokeNonzero"); ("CloseFillStrokeEvenOdd", "CloseFillStrokeEvenOdd"); ("EndPath", "EndPath");
   ("ClipPathNonzero", "ClipPathNonzero"); ("ClipPathEvenOdd", "ClipPathEvenOdd"); ("BeginText", "BeginText"); ("EndText", "EndText");
   ("CharacterSpacing", "CharacterSpacing"); ("WordSpacing", "WordSpacing"); ("HorizontalScaling", "HorizontalScaling");
   ("Leading", "Leading"); ("TextFont", "TextFont"); ("TextRenderingMode", "TextRenderingMode"); ("TextRise", "TextRise");
   ("TextTranslate", "TextTranslate"); ("TextTranslateLeading", "TextTranslateLeading"); ("TextMatrix", "TextMatrix");
   ("TextNextLine", "TextNextLine"); ("TextShow", "TextShow"); ("TextShowArray", "TextShowArray");
   ("TextNextLineShow", "TextNextLineShow"); ("TextNextLineShowSpacing", "TextNextLineShowSpacing"); ("SetCharWidth", "SetCharWidth");
   ("SetCacheDevice", "SetCacheDevice"); ("SetStrokingColorSpaceName", "SetStrokingColorSpaceName");
   ("SetNonstrokingColorSpaceName", "SetNonstrokingColorSpaceName"); ("SetStrokingColorSpaceDevice", "SetStrokingColorSpaceDevice");
   ("SetStrokingColorSpaceDeviceExtended", "SetStrokingColorSpaceDeviceExtended");
   ("SetNonstrokingColorSpaceDevice", "SetNonstrokingColorSpaceDevice");
   ("SetNonstrokingColorSpaceDeviceExtended", "SetNonstrokingColorSpaceDeviceExtended");
   ("SetStrokingColorSpaceGray", "SetStrokingColorSpaceGray"); ("SetNonstrokingColorSpaceGray", "SetNonstrokingColorSpaceGray");
   ("SetStrokingColorSpaceRGB", "SetStrokingColorSpaceRGB"); ("SetNonstrokingColorSpaceRGB", "SetNonstrokingColorSpaceRGB");
   ("SetStrokingColorSpaceCMYK", "SetStrokingColorSpaceCMYK"); ("SetNonstrokingColorSpaceCMYK", "SetNonstrokingColorSpaceCMYK");
   ("ShadingPaint", "ShadingPaint"); ("BeginInlineImageObject", "BeginInlineImageObject");
   ("BeginInlineImageData", "BeginInlineImageData"); ("EndInlineImageObject", "EndInlineImageObject");
   ("InvokeXObject", "InvokeXObject"); ("DefineMarkedContentPoint", "DefineMarkedContentPoint");
   ("DefineMarkedContentPointWithPropertyList", "DefineMarkedContentPointWithPropertyList");
   ("BeginMarkedContentSequence", "BeginMarkedContentSequence");
   ("BeginMarkedContentSequenceWithPropertyList", "BeginMarkedContentSequenceWithPropertyList");
   ("EndMarkedContentSequence", "EndMarkedContentSequence"); ("BeginCompatibilitySection", "BeginCompatibilitySection");
   ("EndCompatibilitySection", "EndCompatibilitySection")]%string.

(** content_stream_operators.h: one of the classes of the macro, or UnknownOperator (11-21) with the bytes it was made of *)
Inductive operator : Set :=
| Known (name : string)
| Unknown (data : list N).
(** an operation: a generic one, or one of the classes of content_stream_operations.h that the parser makes *)
Inductive api_operation : Set :=
| Generic (operands : list obj) (o : operator)
| BeginText
| EndText
| TextFont (font scale : obj)
| TextShow (text : obj)
| TextShowArray (items : obj)
| BeginImage
| ImageData
| EndImage.

(** OperatorBase::Value: content_stream_operators.h:16 and 28 *)
Definition value (o : operator) : option bytes := match o with Known n => of_name n operator_values | Unknown d => Some d end.
(** OperatorBase::GetOperatorType and ContentOperator_GetOperatorType; [None] is VANILLAPDF_ERROR_GENERAL *)
Definition operator_type (o : operator) : option string := of_name (match o with Known n => n | Unknown _ => "Unknown"%string end) operator_types.
(** OperationBase::GetOperationType of the classes, content_stream_operations.h and content_stream_operation_generic.h:34-36 *)
Definition class_type (o : api_operation) : string :=
  match o with
  | Generic _ _ => "Generic"
  | BeginText => "BeginText"
  | EndText => "EndText"
  | TextFont _ _ => "TextFont"
  | TextShow _ => "TextShow"
  | TextShowArray _ => "TextShowArray"
  | BeginImage => "BeginInlineImageObject"
  | ImageData => "BeginInlineImageData"
  | EndImage => "EndInlineImageObject"
  end%string.
Definition operation_type (o : api_operation) : option string := of_name (class_type o) operation_types.

(** the constructors, content_stream_operations.cpp:15-27, 98-118 and 144-191.  ObjectUtils::IsType looks through references, of which
    operands have none; an integer is accepted as a real. *)
Definition none (l : list obj) (o : api_operation) : res api_operation := match l with [] => Ok o | _ => Throw EGeneral end.
Definition text_font (l : list obj) : res api_operation :=
  match l with
  | [name; scale] =>
      match name with
      | OName _ => match scale with OReal _ _ _ | OInt _ => Ok (TextFont name scale) | _ => Throw EGeneral end
      | _ => Throw EGeneral
      end
  | _ => Throw EGeneral
  end.
Definition text_show (l : list obj) : res api_operation :=
  match l with
  | [item] => match item with OLit _ | OHex _ => Ok (TextShow item) | _ => Throw EGeneral end
  | _ => Throw EGeneral
  end.
Definition text_show_array (l : list obj) : res api_operation :=
  match l with
  | [item] => match item with OArr _ => Ok (TextShowArray item) | _ => Throw EGeneral end
  | _ => Throw EGeneral
  end.

(** ReadOperatorReturnOperation, content_stream_parser.cpp:222-376; a token type without a case makes an UnknownOperator of the token. *)
Definition make_operation (l : list obj) (tk : token) : res api_operation :=
  match (match fst tk with TyKw w => of_word w token_types | _ => None end) with
  | None => Ok (Generic l (Unknown (snd tk)))
  | Some t =>
      if String.eqb t "BEGIN_TEXT" then none l BeginText
      else if String.eqb t "END_TEXT" then none l EndText
      else if String.eqb t "TEXT_FONT" then text_font l
      else if String.eqb t "TEXT_SHOW" then text_show l
      else if String.eqb t "TEXT_SHOW_ARRAY" then text_show_array l
      else if String.eqb t "BEGIN_INLINE_IMAGE_OBJECT" then none l BeginImage
      else if String.eqb t "BEGIN_INLINE_IMAGE_DATA" then none l ImageData
      else if String.eqb t "END_INLINE_IMAGE_OBJECT" then none l EndImage
      else match of_name t generic_operators with
           | Some n => Ok (Generic l (Known n))
           | None => Ok (Generic l (Unknown (snd tk)))
           end
  end%string.
(** ReadOperation, content_stream_parser.cpp:199-220 *)
Definition next_operation (s : bytes) : res (api_operation * bytes) :=
  do '(l, r) <- read_operands (S (List.length s)) s;;
  do '(tk, r1) <- rts r;;
  do o <- make_operation l tk;;
  Ok (o, r1).

(** ContentOperationGeneric_GetOperandsSize and _GetOperandAt, content_stream_operation_generic.cpp:22-28: vector::at refuses an index
    past the end; a program asks through ContentOperationGeneric_FromContentOperation, c_content_operation.cpp:239-241, which refuses
    other operations ([None]) *)
Definition operands_size (o : api_operation) : option N := match o with Generic l _ => Some (N.of_nat (List.length l)) | _ => None end.
Definition operand_at (o : api_operation) (i : N) : option (res obj) :=
  match o with
  | Generic l _ => Some (match nth_error l (N.to_nat i) with Some x => Ok x | None => Throw EStdRange end)
  | _ => None
  end.
(** ContentOperationGeneric_GetOperator, content_stream_operation_generic.cpp:14-16 *)
Definition operator_of (o : api_operation) : option operator := match o with Generic _ p => Some p | _ => None end.

(** The edits of an operation: ContentOperationTextFont_SetName and _SetScale, ContentOperationTextShow_SetValue,
    ContentOperationTextShowArray_SetValue (c_content_operation.cpp:261-299, 313-324, 366-377; content_stream_operations.h:121-127,
    165-167, 181-183).  On an operation of another kind the conversion of the handle fails before ([None]).  Simplification: the type of
    the new value is the one of the handle. *)
Inductive edit : Set :=
| SetName (v : obj)
| SetScale (v : obj)
| SetText (v : obj)
| SetItems (v : obj).
Definition apply_edit (e : edit) (o : api_operation) : option api_operation :=
  match e, o with
  | SetName v, TextFont _ z => Some (TextFont v z)
  | SetScale v, TextFont n _ => Some (TextFont n v)
  | SetText v, TextShow _ => Some (TextShow v)
  | SetItems v, TextShowArray _ => Some (TextShowArray v)
  | _, _ => None
  end.
Fixpoint apply_edits (l : list edit) (o : api_operation) : api_operation :=
  match l with
  | [] => o
  | e :: t => apply_edits t (match apply_edit e o with Some o' => o' | None => o end)
  end.

(** ToPdf: content_stream_operation_generic.cpp:30-50 and content_stream_operations.cpp:285-end.  Every class prints the value of the
    operator it names; an operator without a value does not exist ([None]). *)
Definition named (n : string) : option bytes := of_name n operator_values.
Definition operation_pdf (o : api_operation) : option bytes :=
  match o with
  | Generic l p => match value p with Some w => Some (match l with [] => w | _ => join_sp (map to_pdf l) ++ [32] ++ w end) | None => None end
  | BeginText => named "BeginText"
  | EndText => named "EndText"
  | TextFont n z => match named "TextFont" with Some w => Some (to_pdf n ++ [32] ++ to_pdf z ++ [32] ++ w) | None => None end
  | TextShow t => match named "TextShow" with Some w => Some (to_pdf t ++ [32] ++ w) | None => None end
  | TextShowArray a => match named "TextShowArray" with Some w => Some (to_pdf a ++ [32] ++ w) | None => None end
  | BeginImage => named "BeginInlineImageObject"
  | ImageData => named "BeginInlineImageData"
  | EndImage => named "EndInlineImageObject"
  end.

(** The operators of content streams in ISO 32000-1, Annex A, with the name the API has for each; what a program reads off an operation. *)
From Coq Require Import List NArith Bool String.
From Coq Require Import List.
From Verif.Model Require Import Base Object Operators.
Import ListNotations.
Local Open Scope N_scope.

Definition standard_operators : list (list N * string) :=
  [(str "b", "CloseFillStrokeNonzero"); (str "B", "FillStrokeNonzero"); (str "b*", "CloseFillStrokeEvenOdd"); (str "B*", "FillStrokeEvenOdd");
   (str "BDC", "BeginMarkedContentSequenceWithPropertyList"); (str "BI", "BeginInlineImageObject"); (str "BMC", "BeginMarkedContentSequence");
   (str "BT", "BeginText"); (str "BX", "BeginCompatibilitySection"); (str "c", "FullCurve"); (str "cm", "TransformationMatrix");
   (str "CS", "SetStrokingColorSpaceName"); (str "cs", "SetNonstrokingColorSpaceName"); (str "d", "DashPattern");
   (str "d0", "SetCharWidth"); (str "d1", "SetCacheDevice"); (str "Do", "InvokeXObject");
   (str "DP", "DefineMarkedContentPointWithPropertyList"); (str "EI", "EndInlineImageObject"); (str "EMC", "EndMarkedContentSequence");
   (str "ET", "EndText"); (str "EX", "EndCompatibilitySection"); (str "f", "FillPathNonzero"); (str "F", "FillPathCompatibility");
   (str "f*", "FillPathEvenOdd"); (str "G", "SetStrokingColorSpaceGray"); (str "g", "SetNonstrokingColorSpaceGray"); (str "gs", "GraphicsState");
   (str "h", "CloseSubpath"); (str "i", "Flatness"); (str "ID", "BeginInlineImageData"); (str "j", "LineJoin"); (str "J", "LineCap");
   (str "K", "SetStrokingColorSpaceCMYK"); (str "k", "SetNonstrokingColorSpaceCMYK"); (str "l", "Line"); (str "m", "BeginSubpath");
   (str "M", "MiterLimit"); (str "MP", "DefineMarkedContentPoint"); (str "n", "EndPath"); (str "q", "SaveGraphicsState");
   (str "Q", "RestoreGraphicsState"); (str "re", "Rectangle"); (str "RG", "SetStrokingColorSpaceRGB"); (str "rg", "SetNonstrokingColorSpaceRGB");
   (str "ri", "ColorRenderingIntent"); (str "s", "CloseAndStroke"); (str "S", "Stroke"); (str "SC", "SetStrokingColorSpaceDevice");
   (str "sc", "SetNonstrokingColorSpaceDevice"); (str "SCN", "SetStrokingColorSpaceDeviceExtended");
   (str "scn", "SetNonstrokingColorSpaceDeviceExtended"); (str "sh", "ShadingPaint"); (str "T*", "TextNextLine"); (str "Tc", "CharacterSpacing");
   (str "Td", "TextTranslate"); (str "TD", "TextTranslateLeading"); (str "Tf", "TextFont"); (str "Tj", "TextShow"); (str "TJ", "TextShowArray");
   (str "TL", "Leading"); (str "Tm", "TextMatrix"); (str "Tr", "TextRenderingMode"); (str "Ts", "TextRise"); (str "Tw", "WordSpacing");
   (str "Tz", "HorizontalScaling"); (str "v", "FinalCurve"); (str "w", "LineWidth"); (str "W", "ClipPathNonzero"); (str "W*", "ClipPathEvenOdd");
   (str "y", "InitialCurve"); (str "'", "TextNextLineShow"); (str """", "TextNextLineShowSpacing")]%string.

(** what a word is: an operator of the standard, or none *)
Definition kind_of (w : list N) (k : string) : Prop :=
  In (w, k) standard_operators \/ (~ In w (map fst standard_operators) /\ k = "Unknown"%string).

(** the words for which the API has operations with operands of their own *)
Definition own_class : list (list N) := map str ["BT"; "ET"; "BI"; "ID"; "EI"; "Tf"; "Tj"; "TJ"]%string.

(** the operands of an operation with a class of its own, as its getters give them *)
Definition own_operands (o : api_operation) : option (list obj) :=
  match o with
  | Generic _ _ => None
  | TextFont n z => Some [n; z]
  | TextShow t => Some [t]
  | TextShowArray a => Some [a]
  | _ => Some []
  end.

(** what a program reads off an operation: the word it stands for and its operands *)
Definition reports (o : api_operation) (l : list obj) (w : list N) (k : string) : Prop :=
  (exists p, operator_of o = Some p /\ value p = Some w /\ operator_type p = Some k /\
     operands_size o = Some (N.of_nat (List.length l)) /\
     (forall i x, nth_error l i = Some x -> operand_at o (N.of_nat i) = Some (Ok x)) /\
     (forall i, N.of_nat (List.length l) <= i -> operand_at o i = Some (Throw EStdRange))) \/
  (own_operands o = Some l /\ operation_type o = Some k /\ operator_of o = None).

(** the value a history of edits leaves in a place: the last one put there, otherwise what was there *)
Definition last_put (put : edit -> obj -> Prop) (h : list edit) (old new : obj) : Prop :=
  (exists before e after, h = before ++ e :: after /\ put e new /\ forall e' v, In e' after -> ~ put e' v) \/
  ((forall e v, In e h -> ~ put e v) /\ new = old).

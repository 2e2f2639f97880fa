(** Content streams (ISO 32000-1, 7.8.2, 8.9.7, 9.4): which texts denote which instructions. *)
From Coq Require Import List NArith ZArith Bool String.
From Coq Require Import List.
From Verif.Model Require Import Base Object Content.
From Verif.Spec Require Import Strings Grammar.
Import ListNotations.
Local Open Scope N_scope.

(** What a user sees of an instruction: an operator with its operands, a text object with its operations, an inline image with its
    dictionary and its data. *)
Definition operation : Type := (list obj * list N)%type.
Inductive instruction : Type :=
| SOperation (o : operation)
| SText (l : list operation)
| SImage (entries : list (list N * obj)) (data : list N).

Definition seen_op (o : op) : operation :=
  match o with
  | OpGeneric l w => (l, w)
  | OpBeginText => ([], str "BT")
  | OpEndText => ([], str "ET")
  | OpTextFont f z => ([f; z], str "Tf")
  | OpTextShow t => ([t], str "Tj")
  | OpTextShowArray a => ([a], str "TJ")
  | OpBeginImage => ([], str "BI")
  | OpImageData => ([], str "ID")
  | OpEndImage => ([], str "EI")
  end.
Definition seen (i : instr) : instruction :=
  match i with
  | IOp o => SOperation (seen_op o)
  | IText l => SText (map seen_op l)
  | IImage m data => SImage m data
  end.

(** operands are direct objects other than references and streams (7.8.2) *)
Definition scalar (o : obj) : bool :=
  match o with ORef _ _ | OStream _ _ | OArr _ | ODict _ => false | _ => true end.
Inductive operand_text : list N -> obj -> Prop :=
| od_scalar : forall txt o, object_text txt o -> scalar o = true -> operand_text txt o
| od_array : forall txt l, elements_text txt l -> operand_text (91 :: txt ++ [93]) (OArr l)
| od_dict : forall txt es m, fields_text txt es -> dict_content es m -> operand_text ([60; 60] ++ txt ++ [62; 62]) (ODict m)
with elements_text : list N -> list obj -> Prop :=
| el_nil : forall g, gap g -> elements_text g []
| el_cons : forall g txt o more l, gap g -> operand_text txt o -> elements_text more l ->
    (self_delimited o = false -> token_ends more) ->
    elements_text (g ++ txt ++ more) (o :: l)
with fields_text : list N -> list (list N * obj) -> Prop :=
| fi_nil : forall g, gap g -> fields_text g []
| fi_cons : forall g kt k g2 txt o more es, gap g -> name_text kt k -> gap g2 -> operand_text txt o -> fields_text more es ->
    token_ends (g2 ++ txt ++ more) ->
    (self_delimited o = false -> token_ends more) ->
    fields_text (g ++ (47 :: kt) ++ g2 ++ txt ++ more) ((k, o) :: es).

(** an operator is a word that is not a number and not a keyword for a value *)
Definition operator_word (w : list N) : Prop :=
  w <> [] /\ Forall pdf_regular w /\
  (forall c t, w = c :: t -> ~ decimal_digit c /\ ~ In c [43; 45; 46]) /\
  ~ In w [str "true"; str "false"; str "null"].

(** the operands the standard prescribes for the operators that are checked: 9.4.1, 8.9.7 (none), 9.3.1 (a font name and a size),
    9.4.3 (a string, an array) *)
Definition number (o : obj) : Prop := match o with OInt _ | OReal _ _ _ => True | _ => False end.
Definition well_formed (o : operation) : Prop :=
  let '(l, w) := o in
  (In w [str "BT"; str "ET"; str "BI"; str "ID"; str "EI"] -> l = []) /\
  (w = str "Tf" -> exists n z, l = [OName n; z] /\ number z) /\
  (w = str "Tj" -> exists v, l = [OLit v] \/ l = [OHex v]) /\
  (w = str "TJ" -> exists a, l = [OArr a]).

(** the operands, then the operator *)
Inductive operation_text : list N -> operation -> Prop :=
| ox_operator : forall g w, gap g -> operator_word w -> operation_text (g ++ w) ([], w)
| ox_operand : forall g txt o more l w, gap g -> operand_text txt o -> operation_text more (l, w) ->
    (self_delimited o = false -> token_ends more) ->
    operation_text (g ++ txt ++ more) (o :: l, w).

(** the operations of a text object up to ET *)
Inductive operations_text : list N -> list operation -> Prop :=
| os_end : forall txt, operation_text txt ([], str "ET") -> operations_text txt []
| os_more : forall txt o more l, operation_text txt o -> well_formed o -> snd o <> str "ET" -> token_ends more ->
    operations_text more l -> operations_text (txt ++ more) (o :: l).

(** the dictionary of an inline image up to ID *)
Inductive image_entries : list N -> list (list N * obj) -> Prop :=
| ie_data : forall g, gap g -> image_entries (g ++ str "ID") []
| ie_entry : forall g kt k g2 txt o more es, gap g -> name_text kt k -> gap g2 -> operand_text txt o ->
    token_ends (g2 ++ txt ++ more) -> (self_delimited o = false -> token_ends more) ->
    image_entries more es ->
    image_entries (g ++ (47 :: kt) ++ g2 ++ txt ++ more) ((k, o) :: es).

(** image data in which the end marker does not occur: no EI between white space, neither inside nor together with the white space
    around the data, and no E after white space at the very end *)
Definition marked (s : list N) : Prop :=
  exists a b u v, In u pdf_white /\ In v pdf_white /\ s = a ++ [u; 69; 73; v] ++ b.
Definition unmarked (before : N) (data : list N) (after : N) : Prop :=
  ~ marked (before :: data ++ [after]) /\
  ~ (exists a u, In u pdf_white /\ before :: data = a ++ [u; 69]).

(** A content stream.  [held c data] is what is reported as data of an image when the white space after ID is [c] and the data proper
    is [data]: by 8.9.7 it is [data]. *)
Inductive content_text (held : N -> list N -> list N) : list N -> list instruction -> Prop :=
| ct_end : forall g, gap g -> content_text held g []
| ct_op : forall txt o more l, operation_text txt o -> well_formed o -> ~ In (snd o) [str "BT"; str "BI"] -> token_ends more ->
    content_text held more l -> content_text held (txt ++ more) (SOperation o :: l)
| ct_text : forall b txt ops more l, operation_text b ([], str "BT") -> token_ends txt -> operations_text txt ops -> token_ends more ->
    content_text held more l -> content_text held (b ++ txt ++ more) (SText ops :: l)
| ct_image : forall b txt es m before data after final more l,
    operation_text b ([], str "BI") -> token_ends txt -> image_entries txt es -> NoDup (map fst es) -> dict_content es m ->
    In before pdf_white -> In after pdf_white -> In final pdf_white -> unmarked before data after ->
    content_text held more l ->
    content_text held (b ++ txt ++ [before] ++ data ++ [after] ++ str "EI" ++ [final] ++ more) (SImage m (held before data) :: l).

(** the standard's reading, and the reading that counts the white space after ID as data *)
Definition proper (before : N) (data : list N) : list N := data.
Definition with_space (before : N) (data : list N) : list N := before :: data.

(** values without references inside *)
Fixpoint plain (o : obj) : bool :=
  match o with
  | ORef _ _ | OStream _ _ => false
  | OArr l => forallb plain l
  | ODict l => forallb (fun e => plain (snd e)) l
  | _ => true
  end.

(** What an application can hold and write: operands that can be written (C01), operators that are words, operations with the operands
    they need, text objects without ET inside. *)
Definition writable_operation (o : operation) : Prop :=
  operator_word (snd o) /\ well_formed o /\ Forall writable (fst o) /\ forallb plain (fst o) = true.
Definition writable_image (m : list (list N * obj)) (data : list N) : Prop :=
  keys_sorted m /\ Forall (fun e => all_bytes (fst e) /\ snd e <> ONull /\ writable (snd e) /\ plain (snd e) = true) m /\
  unmarked 10 data 10.
Definition writable_instruction (i : instruction) : Prop :=
  match i with
  | SOperation o => writable_operation o /\ ~ In (snd o) [str "BT"; str "BI"]
  | SText l => Forall (fun o => writable_operation o /\ snd o <> str "ET") l
  | SImage m data => writable_image m data
  end.
Definition no_image (i : instruction) : Prop := match i with SImage _ _ => False | _ => True end.

(** what writing and reading does to an instruction: a line break more in front of the data of an image *)
Definition grown (i : instruction) : instruction := match i with SImage m data => SImage m (10 :: data) | _ => i end.

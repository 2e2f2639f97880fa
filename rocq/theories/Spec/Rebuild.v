(** The texts of damaged files: what can be found in a file whose cross-reference data is not usable (ISO 32000-1, 7.5.1, 7.5.3-7.5.5,
    and Annex C.2: a reader may scan the file for objects). *)
From Coq Require Import List NArith ZArith Bool String.
From Verif.Model Require Import Base Object.
From Verif.Spec Require Import Strings Grammar.
Import ListNotations.
Local Open Scope N_scope.

(** white space within a line, and ends of lines *)
Definition blank (c : N) : Prop := In c [0; 9; 12; 32].
Definition no_line_end (l : list N) : Prop := Forall (fun c => c <> 10 /\ c <> 13) l.
Definition line_end (e : list N) : Prop := In e [[10]; [13]; [13; 10]].

(** blanks and comment lines in front of something *)
Inductive lead_in : list N -> Prop :=
| li_nil : lead_in []
| li_blank : forall c l, blank c -> lead_in l -> lead_in (c :: l)
| li_comment : forall body e l, no_line_end body -> line_end e -> lead_in l -> lead_in (37 :: body ++ e ++ l).

Definition digits_text (ds : list N) : Prop := ds <> [] /\ Forall decimal_digit ds.

(** a complete object, a direct one or a stream with a direct length that is not a cross-reference stream *)
Inductive body_text : list N -> obj -> Prop :=
| bt_direct : forall txt o, object_text txt o -> body_text txt o
| bt_stream : forall txt m data, stream_text (fun _ _ => None) txt (OStream m data) ->
    (forall v, In (str "Type", v) m -> exists t, v = OName t /\ t <> str "XRef") -> body_text txt (OStream m data).

(** an object that is not a cross-reference stream *)
Definition not_xref (o : obj) : Prop :=
  match o with
  | OStream m _ => forall v, In (str "Type", v) m -> exists t, v = OName t /\ t <> str "XRef"
  | _ => True
  end.

(** What a piece of the file contributes *)
Inductive event : Type :=
| Object (num gen : N) (o : obj)
| Trailer (m : list (list N * obj)).

(** The pieces of a file; the text of each starts at the beginning of a token.  The last argument says that the text ends with a word or
    number, so that what follows has to be separated from it. *)
Inductive core_text : list N -> option event -> bool -> Prop :=
| ct_line_end : forall e, line_end e -> core_text e None false
| ct_object : forall dn b1 dg b2 g txt o g2,                         (* 12 0 obj ... endobj, the first three words on one line *)
    digits_text dn -> decimal_value dn < 2 ^ 64 -> digits_text dg -> decimal_value dg <= 65535 ->
    Forall blank b1 -> b1 <> [] -> Forall blank b2 -> b2 <> [] ->
    gap g -> body_text txt o -> token_ends (g ++ txt) -> gap g2 -> g2 <> [] ->
    core_text (dn ++ b1 ++ dg ++ b2 ++ str "obj" ++ g ++ txt ++ g2 ++ str "endobj")
      (Some (Object (decimal_value dn) (decimal_value dg) o)) true
| ct_trailer : forall g txt m, gap g -> object_text txt (ODict m) ->
    core_text (str "trailer" ++ g ++ txt) (Some (Trailer m)) false
| ct_startxref : forall g ds, gap g -> g <> [] -> digits_text ds -> decimal_value ds < 2 ^ 63 ->
    core_text (str "startxref" ++ g ++ ds) None true
| ct_subsection : forall d1 b1 d2 b2 e, digits_text d1 -> digits_text d2 -> Forall blank b1 -> b1 <> [] -> Forall blank b2 -> line_end e ->
    core_text (d1 ++ b1 ++ d2 ++ b2 ++ e) None false                     (* 0 6 *)
| ct_row : forall d1 b1 d2 b2 w line e, digits_text d1 -> digits_text d2 -> Forall blank b1 -> b1 <> [] -> Forall blank b2 -> b2 <> [] ->
    Forall pdf_regular w -> w <> [] -> ~ In (hd 0 w) (str "+-.0123456789") -> w <> str "obj" ->
    no_line_end line -> line_end e -> token_ends (line ++ e) ->
    core_text (d1 ++ b1 ++ d2 ++ b2 ++ w ++ line ++ e) None false        (* 0000000016 00000 n *)
| ct_words : forall w line e, Forall pdf_regular w -> w <> [] -> ~ In (hd 0 w) (str "+-.0123456789") ->
    w <> str "trailer" -> w <> str "startxref" -> no_line_end line -> line_end e -> token_ends (line ++ e) ->
    core_text (w ++ line ++ e) None false.                               (* xref, or any other line that does not begin with a number *)

(** The text of a file from some position on: pieces, each after blanks and comments; [pos] is the position of the text in the file.
    Every event is noted with the position where its piece, with the blanks and comments before it, begins. *)
Inductive pieces : nat -> list N -> list (nat * event) -> Prop :=
| pc_nil : forall pos, pieces pos [] []
| pc_piece : forall pos lead core ev word more l, lead_in lead -> core_text core ev word ->
    ~ (last lead 0 = 13 /\ hd 0 core = 10) -> (word = true -> token_ends more) ->
    pieces (pos + List.length lead + List.length core) more l ->
    pieces pos (lead ++ core ++ more) (match ev with Some x => (pos, x) :: l | None => l end).

(** what remains at the end: blanks and comments, the last comment perhaps without end of line *)
Inductive file_end : list N -> Prop :=
| fe_lead : forall l, lead_in l -> file_end l
| fe_comment : forall l body, lead_in l -> no_line_end body -> file_end (l ++ 37 :: body).

(** the last object with a number, and the last trailer dictionary *)
Fixpoint last_object (n : N) (l : list (nat * event)) : option (nat * N * obj) :=
  match l with
  | [] => None
  | (pos, Object num gen o) :: t =>
      match last_object n t with
      | Some x => Some x
      | None => if num =? n then Some (pos, gen, o) else None
      end
  | _ :: t => last_object n t
  end.
Fixpoint last_trailer (l : list (nat * event)) : option (list (list N * obj)) :=
  match l with
  | [] => None
  | (_, Trailer m) :: t => match last_trailer t with Some x => Some x | None => Some m end
  | _ :: t => last_trailer t
  end.

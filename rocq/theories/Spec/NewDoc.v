(** What a program makes of a new document: which objects there are, what the entries of the pages are and in which order the pages are
    in the document. *)
From Coq Require Import List NArith ZArith Bool String.
From Verif.Model Require Import Base Object Equality SMap PageTree NewDoc.
From Verif.Spec Require Import Grammar FileWrite Unreferenced Duplicates PageTree Save.
Import ListNotations.
Local Open Scope N_scope.

(** [s_made]: the objects are numbered 1 to s_made; [s_pages]: those that are pages, in the document or not; [s_value]: the entries of
    the pages; [s_other]: the objects the program made that are not pages; [s_order]: the pages of the document, from the first one *)
Record sheet : Type := { s_made : N; s_pages : list N; s_value : N -> list N -> option obj; s_other : N -> option obj; s_order : list N }.
Definition put_value (n : N) (k : list N) (v : obj) (f : N -> list N -> option obj) : N -> list N -> option obj :=
  fun n' k' => if n' =? n then if list_eq_dec N.eq_dec k' k then Some v else f n' k' else f n' k'.
Definition no_value : N -> list N -> option obj := fun _ _ => None.
Definition the_tree : obj := ORef 2 0.

(** a new document has the catalog 1, the page tree 2, one page 3 and the information dictionary 4 *)
Definition new_sheet : sheet :=
  {| s_made := 4; s_pages := [3]; s_other := fun _ => None; s_order := [3];
     s_value := put_value 3 (str "Type") (OName (str "Page")) (put_value 3 (str "Parent") the_tree no_value) |}.
Definition next_sheet (s : sheet) (a : action) : sheet :=
  let n := s_made s + 1 in
  match a with
  | NewPage => {| s_made := n; s_pages := n :: s_pages s; s_value := put_value n (str "Type") (OName (str "Page")) (s_value s);
                  s_other := s_other s; s_order := s_order s |}
  | NewObject o => {| s_made := n; s_pages := s_pages s; s_value := s_value s; s_other := fun m => if m =? n then Some o else s_other s m;
                      s_order := s_order s |}
  | SetEntry p k v => {| s_made := s_made s; s_pages := s_pages s; s_value := put_value p k v (s_value s); s_other := s_other s; s_order := s_order s |}
  | Pages o => {| s_made := s_made s; s_pages := s_pages s;
                  s_value := match o, snd (edit (s_order s) o) with
                             | PInsert p _, true | PAppend p, true => put_value p (str "Parent") the_tree (s_value s)
                             | _, _ => s_value s
                             end;
                  s_other := s_other s; s_order := fst (edit (s_order s) o) |}
  end.
Definition sheet_after (l : list action) : sheet := fold_left next_sheet l new_sheet.

(** what the library answers: the number of the object; insertions outside the document are refused *)
Definition right_answer (s : sheet) (a : action) : answer :=
  match a with
  | NewPage | NewObject _ => Number (Ok (s_made s + 1))
  | SetEntry _ _ _ => Done (Ok tt)
  | Pages (PInsert p i) => Done (if snd (edit (s_order s) (PInsert p i)) then Ok tt else Throw EGeneral)
  | Pages _ => Done (Ok tt)
  end.
Fixpoint right_answers (s : sheet) (l : list action) : list answer :=
  match l with
  | [] => []
  | a :: t => right_answer s a :: right_answers (next_sheet s a) t
  end.

Section Good.
Variable real : bool -> N -> N -> dbl.
(** an object that can be stored, refers to objects that exist, and has real numbers that fit; streams refer to nothing *)
Definition fit (made : N) (o : obj) : Prop :=
  storable o /\ o <> ONull /\ (forall n g, o <> ORef n g) /\
  (forall n g, mentions n g o -> 1 <= n <= made /\ g = 0) /\
  (forall neg m p, real_inside neg m p o -> within_range (real neg m p)) /\
  match o with OStream _ _ => forall n g, ~ mentions n g o | _ => True end.
Definition good_action (s : sheet) (a : action) : Prop :=
  match a with
  | NewPage => True
  | NewObject o => fit (s_made s) o
  | SetEntry p k v => In p (s_pages s) /\ Forall is_byte k /\ k <> str "Type" /\ k <> str "Parent" /\ writable v /\ v <> ONull /\
      (forall n g, mentions n g v -> 1 <= n <= s_made s /\ g = 0) /\
      (forall neg m q, real_inside neg m q v -> within_range (real neg m q))
  | Pages (PInsert p i) => In p (s_pages s) /\ i < 2 ^ 64
  | Pages (PAppend p) => In p (s_pages s)
  | Pages (PRemove i) => i < 2 ^ 64
  end.
Fixpoint good_actions (s : sheet) (l : list action) : Prop :=
  match l with
  | [] => True
  | a :: t => good_action s a /\ good_actions (next_sheet s a) t
  end.
End Good.

(** the objects [f] are those of the sheet *)
Definition shows (s : sheet) (f : store) : Prop :=
  (forall p, In p (s_pages s) -> exists m, f p 0 = ODict m /\ forall k, Forall is_byte k -> sm_find k m = s_value s p k) /\
  (forall n o, s_other s n = Some o -> f n 0 = o).

(** [v] is the value of the entry [k] of the dictionary one sees at [o] *)
Definition entry_at (f : store) (o : obj) (k : list N) (v : obj) : Prop := exists m, seen_at f o = ODict m /\ sm_find k m = Some v.

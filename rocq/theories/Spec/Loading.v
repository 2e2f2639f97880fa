(** Which object a number stands for in a file that is only read, and what a program that asks for objects and changes them may expect. *)
From Coq Require Import List NArith ZArith Bool String.
From Verif.Model Require Import Base Object Xref Loading.
Import ListNotations.
Local Open Scope N_scope.

Section S.
(** the sections of the file, newest first; the object at an offset; the objects in an object stream *)
Variable c : list (list xentry).
Variable read_at : N -> N -> Z -> res obj.
Variable members : obj -> res (list (N * obj)).

(** 7.5.6: the entry of the newest section that has the number (with that generation) *)
Fixpoint entry_of (sections : list (list xentry)) (n g : N) : option xentry :=
  match sections with
  | [] => None
  | l :: r =>
      match find (fun e => xnum e =? n) l with
      | Some e => if xgen e =? g then Some e else entry_of r n g
      | None => entry_of r n g
      end
  end.
(** [l] are the objects of the object stream with number [k] *)
Definition stream_holds (k : N) (l : list (N * obj)) : Prop :=
  exists e off u m d, entry_of c k 0 = Some e /\ xdata e = KUsed off u /\ read_at k 0 off = Ok (OStream m d) /\ members (OStream m d) = Ok l.
(** the object in the file *)
Inductive original (n g : N) : obj -> Prop :=
| or_missing : entry_of c n g = None -> original n g ONull
| or_free : forall e next, entry_of c n g = Some e -> xdata e = KFree next -> original n g ONull
| or_used : forall e off u o, entry_of c n g = Some e -> xdata e = KUsed off u -> read_at n g off = Ok o -> original n g o
| or_stream : forall e k i l o, entry_of c n g = Some e -> xdata e = KComp k i -> stream_holds k l -> In (n, o) l -> original n g o.

(** some entry of the file is in the object stream [k] *)
Definition object_stream (k : N) : Prop := exists l e i, In l c /\ In e l /\ xdata e = KComp k i.
(** The objects can be read, and an object stream holds only objects whose newest entry says so (or that are free): no object of an
    object stream was replaced by an update *)
Record orderly : Prop := {
  or_readable : forall n g e off u, entry_of c n g = Some e -> xdata e = KUsed off u -> off <> (-1)%Z /\ exists o, read_at n g off = Ok o;
  or_streams : forall k, object_stream k -> exists l, stream_holds k l /\ NoDup (map fst l) /\
    forall n o, In (n, o) l -> exists e, entry_of c n 0 = Some e /\ ((exists next, xdata e = KFree next) \/ exists i, xdata e = KComp k i);
  or_listed : forall n g e k i, entry_of c n g = Some e -> xdata e = KComp k i -> g = 0 /\ forall l, stream_holds k l -> exists o, In (n, o) l
}.

(** what a program sees: the objects are what they are in the file until the program changes them *)
Definition world := N -> N -> obj.
Definition in_file (n g : N) : bool := match entry_of c n g with Some e => match xdata e with KFree _ => false | _ => true end | None => false end.
Definition expected (x : lop) (w : world) : option obj * world :=
  match x with
  | LRead n g => (Some (w n g), w)
  | LEdit n g o => (Some (w n g), if in_file n g then fun n' g' => if (n' =? n) && (g' =? g) then o else w n' g' else w)
  | LTake _ _ => (None, w)
  end.
Fixpoint expected_all (l : list lop) (w : world) : list (option obj) * world :=
  match l with
  | [] => ([], w)
  | x :: r => let '(a, w1) := expected x w in let '(b, w2) := expected_all r w1 in (a :: b, w2)
  end.
(** the object streams themselves are left alone *)
Definition spares_streams (x : lop) : Prop := match x with LEdit n g _ => ~ (g = 0 /\ object_stream n) | _ => True end.
Definition answers (r : res obj) (x : option obj) : Prop := match x with Some o => r = Ok o | None => True end.
End S.

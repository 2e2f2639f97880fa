(** Objects are found by the numbers written in front of them, and it does not matter what was looked up before. *)
From Coq Require Import List NArith ZArith Bool Permutation Sorted.
From Verif.Model Require Import Base Object Misnumber.
Import ListNotations.
Local Open Scope N_scope.

(** The tables as they are after opening: no number twice in a section, nothing read yet. *)
Definition unread (s : slot) : Prop := sl_code s = sl_num s /\ forall off o, sl_data s <> SUsed off (Some o).
Definition opened (c : list table) : Prop := forall t, In t c -> NoDup (map sl_num t) /\ Forall unread t.

Definition is_listed (c : list table) (s : slot) : Prop := exists t, In t c /\ In s t.

Section Reading.
Variable read_at : Z -> res (N * N * obj).
Variable read_compressed : N -> N -> res obj.

(** The file holds object [n g], and it is [o]: some entry, whatever number it gives, leads to it. *)
Definition present (c : list table) (n g : N) (o : obj) : Prop :=
  exists s, is_listed c s /\
    ((exists off, sl_data s = SUsed off None /\ read_at off = Ok (n, g, o)) \/
     (exists i j, sl_data s = SComp i j /\ sl_num s = n /\ sl_gen s = g /\ read_compressed i j = Ok o)).

(** An entry gives the number of the object it leads to. *)
Definition truthful (s : slot) : Prop :=
  forall off l, sl_data s = SUsed off l -> exists o, read_at off = Ok (sl_num s, sl_gen s, o).
(** What [n g] is by the tables as they stand: the newest entry counts. *)
Definition by_table (c : list table) (n g : N) : res (option obj) :=
  match find (fun s => (sl_num s =? n) && (sl_gen s =? g)) (concat c) with
  | None => Ok None
  | Some s =>
      match sl_data s with
      | SFree => Ok None
      | SUsed off _ => do '(_, _, o) <- read_at off;; Ok (Some o)
      | SComp i j => do o <- read_compressed i j;; Ok (Some o)
      end
  end.

(** Everything that is listed can be read. *)
Definition readable (s : slot) : Prop :=
  match sl_data s with
  | SFree => True
  | SUsed off _ => exists n g o, read_at off = Ok (n, g, o)
  | SComp i j => exists o, read_compressed i j = Ok o
  end.
(** The entry speaks of object number [n]: the object it leads to has that number, or it leads to none and has that number itself. *)
Definition speaks_of (s : slot) (n : N) : Prop :=
  match sl_data s with
  | SUsed off _ => exists g o, read_at off = Ok (n, g, o)
  | _ => sl_num s = n
  end.
(** A lookup of [n g] meets an entry that leads to another object. *)
Definition misleads (s : slot) (n g : N) : Prop :=
  sl_num s = n /\ sl_gen s = g /\ exists off n' g' o, sl_data s = SUsed off None /\ read_at off = Ok (n', g', o) /\ (n', g') <> (n, g).
End Reading.

(** The order in which entries are put back: by number; entries with the same number in any order. *)
Definition by_number (arrange : table -> table) : Prop :=
  forall t, Permutation (arrange t) t /\ StronglySorted (fun a b => sl_num a <= sl_num b) (arrange t).
(** The entry that a lookup of [n g] meets in the tables as they stand. *)
Definition meets (c : list table) (n g : N) (s : slot) : Prop :=
  find (fun x => (sl_num x =? n) && (sl_gen x =? g)) (concat c) = Some s.

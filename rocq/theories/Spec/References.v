(** References as a program understands them: a reference names an object number, and the file has one object under each number.

    [meaning] is all there is: which object is under which number, which number each reference names, and which handles the program has.
    There are no remembered targets, back references or hashes. *)
From Coq Require Import List Arith Bool.
From Verif.Model Require Import Base References.
Import ListNotations.

Record meaning : Type := {
  objects : nat;                       (* created so far: 1 .. objects; 0 is null *)
  numbers : nat;                       (* allocated so far: 1 .. numbers *)
  references : nat;                    (* created or read so far: 1 .. references *)
  placed : nat -> option nat;          (* the object under a number *)
  names : nat -> nat;                  (* the number a reference names *)
  of_file : nat -> bool;               (* the reference was read from the file *)
  pointed : nat -> bool;               (* the program has pointed the reference at an object *)
  has : nat -> bool;                   (* the program has a handle of the object *)
  has_entry : nat -> bool }.           (* the program has a handle of the entry *)

Definition nothing : meaning := {|
  objects := 0; numbers := 0; references := 0; placed := fun _ => None; names := fun _ => 0; of_file := fun _ => false;
  pointed := fun _ => false; has := fun o => o =? 0; has_entry := fun _ => false |}.

(** the number of an object *)
Definition number_of (m : meaning) (o : nat) : option nat :=
  find (fun n => match placed m n with Some p => p =? o | None => false end) (seq 1 (numbers m)).
Definition object_under (m : meaning) (n : nat) : nat := match placed m n with Some o => o | None => 0 end.
Definition a_reference (m : meaning) (r : nat) : bool := (1 <=? r) && (r <=? references m).

Definition give (m : meaning) (o : nat) (b : bool) : meaning := {|
  objects := objects m; numbers := numbers m; references := references m; placed := placed m; names := names m; of_file := of_file m;
  pointed := pointed m; has := upd (has m) o b; has_entry := has_entry m |}.
Definition give_entry (m : meaning) (n : nat) (b : bool) : meaning := {|
  objects := objects m; numbers := numbers m; references := references m; placed := placed m; names := names m; of_file := of_file m;
  pointed := pointed m; has := has m; has_entry := upd (has_entry m) n b |}.
Definition new_name (m : meaning) (n : nat) (f : bool) : meaning := {|
  objects := objects m; numbers := numbers m; references := S (references m); placed := placed m;
  names := upd (names m) (S (references m)) n; of_file := upd (of_file m) (S (references m)) f;
  pointed := upd (pointed m) (S (references m)) false; has := has m; has_entry := has_entry m |}.

(** what each call should do and answer *)
Definition means (m : meaning) (p : op) : meaning * answer :=
  match p with
  | NewObject =>
      ({| objects := S (objects m); numbers := numbers m; references := references m; placed := placed m; names := names m;
          of_file := of_file m; pointed := pointed m; has := upd (has m) (S (objects m)) true; has_entry := has_entry m |},
       AObject (S (objects m)))
  | Allocate =>
      ({| objects := objects m; numbers := S (numbers m); references := references m; placed := placed m; names := names m;
          of_file := of_file m; pointed := pointed m; has := has m; has_entry := upd (has_entry m) (S (numbers m)) true |},
       AEntry (S (numbers m)))
  | NewReference => (new_name m 0 false, AReference (S (references m)))
  | ReadReference n => (new_name m n true, AReference (S (references m)))
  | Place n o =>
      if has_entry m n && has m o then
        ({| objects := objects m; numbers := numbers m; references := references m; placed := upd (placed m) n (Some o); names := names m;
            of_file := of_file m; pointed := pointed m; has := has m; has_entry := has_entry m |}, ADone)
      else (m, AMisuse)
  | FindEntry n =>
      if (1 <=? n) && (n <=? numbers m) then (give_entry m n true, AEntry n) else (m, AError EObjectMissing)
  | RemoveEntry n => (m, ABool false)                               (* excluded below unless there is no such entry *)
  | Fetch n => (give m (object_under m n) true, AObject (object_under m n))
  | Release o => (give m o false, ADone)
  | ReleaseEntry n => (give_entry m n false, ADone)
  | PointAt r o =>
      if a_reference m r && has m o then
        match number_of m o with
        | Some n =>
            ({| objects := objects m; numbers := numbers m; references := references m; placed := placed m; names := upd (names m) r n;
                of_file := of_file m; pointed := upd (pointed m) r true; has := has m; has_entry := has_entry m |}, ADone)
        | None => (m, AError EGeneral)
        end
      else (m, AMisuse)
  | Number r | Text r | Hash r => (m, if a_reference m r then ANumber (names m r) else AMisuse)
  | Target r =>
      if a_reference m r then
        if of_file m r || pointed m r then (give m (object_under m (names m r)) true, AObject (object_under m (names m r)))
        else (m, AError EFileDisposed)
      else (m, AMisuse)
  | Equal r r' => (m, if a_reference m r && a_reference m r' then ABool (names m r =? names m r') else AMisuse)
  end.
Fixpoint meant (m : meaning) (h : list op) : list answer :=
  match h with
  | [] => []
  | p :: h' => snd (means m p) :: meant (fst (means m p)) h'
  end.

(** Programs that are careful: null is not placed and nothing is pointed at null, no object is placed twice, no entry is removed, and an
    object that is under a number already is replaced only when the program has no handle of it and no reference of its own making names
    the number. *)
Definition careful_step (m : meaning) (p : op) : Prop :=
  match p with
  | Place n o =>
      o <> 0 /\ number_of m o = None
      /\ forall old, placed m n = Some old ->
           has m old = false /\ forall r, a_reference m r = true -> names m r = n -> of_file m r = true
  | PointAt _ o => o <> 0
  | RemoveEntry n => n = 0 \/ numbers m < n
  | _ => True
  end.
Fixpoint careful (m : meaning) (h : list op) : Prop :=
  match h with
  | [] => True
  | p :: h' => careful_step m p /\ careful (fst (means m p)) h'
  end.

(** the meaning after a history *)
Definition after (h : list op) : meaning := fold_left (fun m p => fst (means m p)) h nothing.
(** the program has pointed its own reference [r] at the object [o], which is under number [n] and of which it has a handle *)
Definition points (m : meaning) (r o n : nat) : Prop :=
  a_reference m r = true /\ of_file m r = false /\ pointed m r = true /\ names m r = n /\ placed m n = Some o /\ has m o = true.

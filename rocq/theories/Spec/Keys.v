(** Dictionaries as a program expects them: a key is the text a name had when it was passed, and belongs to the dictionary. *)
From Coq Require Import List NArith ZArith Bool.
From Verif.Model Require Import Base SMap Keys.
Import ListNotations.

(** The texts of the name handles, and the dictionaries as sorted lists of texts and values (Model/SMap.v). *)
Record ideal : Type := { i_names : list bytes; i_dicts : list (smap nat) }.
Definition put_dict (w : ideal) (d : nat) (m : smap nat) : ideal :=
  {| i_names := i_names w; i_dicts := firstn d (i_dicts w) ++ m :: skipn (S d) (i_dicts w) |}.
Definition ideal_step (w : ideal) (o : op) : ideal * out :=
  match o with
  | NewName t => ({| i_names := i_names w ++ [t]; i_dicts := i_dicts w |}, ODone)
  | SetName h t =>
      match nth_error (i_names w) h with
      | None => (w, OBadHandle)
      | Some _ => ({| i_names := firstn h (i_names w) ++ t :: skipn (S h) (i_names w); i_dicts := i_dicts w |}, ODone)
      end
  | NewDict => ({| i_names := i_names w; i_dicts := i_dicts w ++ [[]] |}, ODone)
  | Put d h v overwrite =>
      match nth_error (i_dicts w) d, nth_error (i_names w) h with
      | Some m, Some k =>
          if negb overwrite && sm_contains k m then (w, OThrow EDuplicateKey)
          (* a present key keeps its value, see C11 *)
          else (put_dict w d (sm_insert k v m), ODone)
      | _, _ => (w, OBadHandle)
      end
  | Get d h =>
      match nth_error (i_dicts w) d, nth_error (i_names w) h with
      | Some m, Some k => (w, OFound (sm_find k m))
      | _, _ => (w, OBadHandle)
      end
  | Del d h =>
      match nth_error (i_dicts w) d, nth_error (i_names w) h with
      | Some m, Some k => (put_dict w d (sm_remove k m), OBoolean (sm_contains k m))
      | _, _ => (w, OBadHandle)
      end
  | Clear d =>
      match nth_error (i_dicts w) d with
      | Some _ => (put_dict w d [], ODone)
      | None => (w, OBadHandle)
      end
  | KeyAt d i =>
      match nth_error (i_dicts w) d with
      | Some m =>
          match nth_error m i with
          | Some (k, _) => ({| i_names := i_names w ++ [k]; i_dicts := i_dicts w |}, ODone)
          | None => (w, OBadHandle)
          end
      | None => (w, OBadHandle)
      end
  | Show d =>
      match nth_error (i_dicts w) d with
      | Some m => (w, OList m)
      | None => (w, OBadHandle)
      end
  end.
Definition no_names : ideal := {| i_names := []; i_dicts := [] |}.
Fixpoint ideal_end (w : ideal) (l : list op) : ideal :=
  match l with
  | [] => w
  | o :: r => ideal_end (fst (ideal_step w o)) r
  end.
Fixpoint ideal_run (w : ideal) (l : list op) : list out :=
  match l with
  | [] => []
  | o :: r => let '(w1, x) := ideal_step w o in x :: ideal_run w1 r
  end.

(** A history, given with its answers, that leaves names alone once they were passed to a dictionary or came out of one.  [names] is the
    number of handles so far, [used] the handles that are not to be changed any more. *)
Fixpoint polite (names : nat) (used : list nat) (l : list (op * out)) : Prop :=
  match l with
  | [] => True
  | (NewName _, _) :: r => polite (S names) used r
  | (SetName h _, _) :: r => ~ In h used /\ polite names used r
  | (Put _ h _ _, _) :: r => polite names (h :: used) r
  | (KeyAt _ _, ODone) :: r => polite (S names) (names :: used) r
  | (_, _) :: r => polite names used r
  end.
(** All texts are made of bytes. *)
Definition op_bytes (o : op) : Prop :=
  match o with NewName t => all_bytes t | SetName _ t => all_bytes t | _ => True end.
Definition polite_history (l : list op) : Prop := polite 0 [] (combine l (ideal_run no_names l)).

(** What setting and getting the entries of a page, the document information and a page range means. *)
From Coq Require Import List NArith ZArith Bool String.
From Coq Require Import List.
From Verif.Model Require Import Base SMap Object Containers Entries.
Import ListNotations.
Local Open Scope N_scope.

(** A page is a function from the names of its entries to values. *)
Definition apage : Type := bytes -> option obj.
Definition upd (p : apage) (k : bytes) (v : obj) : apage := fun j => if beq j k then Some v else p j.

(** the keys of ISO 32000-1, table 30 *)
Definition page_key (e : entry) : bytes :=
  match e with EResources => str "Resources" | EMediaBox => str "MediaBox" | EAnnots => str "Annots" end.

Section Expect.
Variable heap : N -> obj.

(** the object a value stands for *)
Definition meant (v : obj) : obj := match v with ORef n _ => heap n | _ => v end.
Definition number (v : obj) : bool := match meant v with OInt _ | OReal _ _ _ => true | _ => false end.
Definition stream (v : obj) : bool := match meant v with OStream _ _ => true | _ => false end.

(** Resources are a dictionary, the media box four numbers, annotations an array, contents a stream or an array of streams. *)
Definition right_type (e : entry) (v : obj) : bool :=
  match e, meant v with
  | EResources, ODict _ => true
  | EMediaBox, OArr [a; b; c; d] => number a && number b && number c && number d
  | EAnnots, OArr _ => true
  | _, _ => false
  end.
Definition contents_type (v : obj) : bool :=
  match meant v with
  | OStream _ _ => true
  | OArr l => forallb stream l
  | _ => false
  end.

(** What the caller of one call sees; an error is [None].  Setting replaces the entry; getting gives the value of the entry, nothing
    when there is none, an error when it has the wrong type; null contents are no contents. *)
Definition expected (p : apage) (o : page_op) : apage * option (option obj) :=
  match o with
  | PSet e v => (upd p (page_key e) v, Some None)
  | PGet e => (p, match p (page_key e) with
                  | None => Some None
                  | Some v => if right_type e v then Some (Some v) else None
                  end)
  | PSetContents n => (upd p (str "Contents") (ORef n 0), Some None)
  | PGetContents => (p, match p (str "Contents") with
                        | None => Some None
                        | Some v => match meant v with
                                    | ONull => Some None
                                    | _ => if contents_type v then Some (Some v) else None
                                    end
                        end)
  end.
Fixpoint expected_run (p : apage) (os : list page_op) : apage * list (option (option obj)) :=
  match os with
  | [] => (p, [])
  | o :: t => let '(p1, a) := expected p o in let '(p2, l) := expected_run p1 t in (p2, a :: l)
  end.
End Expect.

Definition seen {A} (r : res A) : option A := match r with Ok a => Some a | _ => None end.

(** The contents are not replaced after they were read. *)
Fixpoint contents_set_before_read (os : list page_op) : Prop :=
  match os with
  | [] => True
  | PGetContents :: t => (forall n, ~ In (PSetContents n) t) /\ contents_set_before_read t
  | _ :: t => contents_set_before_read t
  end.

(** The same text up to the case of the letters A-Z. *)
Definition lower (c : N) : N := if (65 <=? c) && (c <=? 90) then c + 32 else c.
Definition same_text (a b : bytes) : Prop := map lower a = map lower b.

(** The sub-ranges of a page range: the pairs of its numbers, in order. *)
Fixpoint pairs (l : list Z) : list (Z * Z) :=
  match l with
  | a :: b :: t => (a, b) :: pairs t
  | _ => []
  end.

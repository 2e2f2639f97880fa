(** What a user expects of opening and closing: no addresses, no map.  A file that was opened before gives the document that is open
    for it, any other readable file a new document; an unreadable file gives the error of reading it. *)
From Coq Require Import List NArith Bool.
From Verif.Model Require Import Base DocMap.
Import ListNotations.
Local Open Scope N_scope.

Record world : Type := {
  w_files : list (N * bool);  (* files the user holds, and whether they can be read *)
  w_docs : list doc;          (* documents the user holds: identity, file, number of handles *)
  w_next : N
}.
Definition fresh_world : world := {| w_files := []; w_docs := []; w_next := 0 |}.

Definition held (w : world) (f : N) : option bool := option_map snd (find (fun e => fst e =? f) (w_files w)).
Definition document_of (w : world) (f : N) : option doc := find (fun y => d_file y =? f) (w_docs w).

Definition expect (w : world) (c : call) : world * answer :=
  match c with
  | NewFile _ r => ({| w_files := (w_next w, r) :: w_files w; w_docs := w_docs w; w_next := w_next w + 1 |}, AFile (w_next w))
  | OpenDocument f =>
      match held w f with
      | None => (w, ANotAllowed)
      | Some r =>
          match document_of w f with
          | Some y => ({| w_files := w_files w; w_docs := map (with_handles (d_id y) (fun n => n + 1)) (w_docs w); w_next := w_next w |},
                       ADocument (d_id y))
          | None => if r then ({| w_files := w_files w; w_docs := {| d_id := w_next w; d_file := f; d_handles := 1 |} :: w_docs w;
                                  w_next := w_next w + 1 |}, ADocument (w_next w))
                    else (w, AUnreadable)
          end
      end
  | CloseFile f =>
      match held w f with
      | Some _ => ({| w_files := filter (fun e => negb (fst e =? f)) (w_files w); w_docs := w_docs w; w_next := w_next w |}, ADone)
      | None => (w, ANotAllowed)
      end
  | CloseDocument d =>
      match find (fun y => d_id y =? d) (w_docs w) with
      | Some y =>
          ({| w_files := w_files w;
              w_docs := if 1 <? d_handles y then map (with_handles d (fun n => n - 1)) (w_docs w)
                        else filter (fun z => negb (d_id z =? d)) (w_docs w);
              w_next := w_next w |}, ADone)
      | None => (w, ANotAllowed)
      end
  end.
Fixpoint expect_run (w : world) (cs : list call) : world * list answer :=
  match cs with
  | [] => (w, [])
  | c :: t => let '(w1, a) := expect w c in let '(w2, l) := expect_run w1 t in (w2, a :: l)
  end.

(** Calls of the API: handles that exist, addresses that are free. *)
Definition allowed (cs : list call) : Prop := ~ In ANotAllowed (snd (run nothing_open cs)).

Definition only_readable (cs : list call) : Prop := forall a, ~ In (NewFile a false) cs.

(** What an incremental save of a document with a cross-reference stream and object streams has to record. *)
From Coq Require Import List NArith ZArith Bool String.
From Verif.Model Require Import Base SMap Object Token Parser Xref StartXref FileWrite Chain Update.
From Verif.Spec Require Import Strings Grammar FileWrite Update StreamFile.
Import ListNotations.
Local Open Scope N_scope.

(** [s] is the only section of [file], as it was found when the file was opened *)
Definition opened_section (decode : header -> bytes -> res bytes) (file : bytes) (s : fsection) : Prop :=
  last_xref_offset file = Ok (f_offset s) /\
  exists sec, read_chain parser_dictionary decode 1 file (f_offset s) = Ok [sec] /\ f_trailer s = s_trailer sec.

(** the number was changed by the program *)
Definition changed_number (s : fsection) (n : N) : Prop := exists y, In y (f_items s) /\ f_dirty y = true /\ xnum (f_entry y) = n.
(** The program changed objects of the document [l] and added new ones: an entry of a number of the document has its generation.  It left
    alone the objects in object streams (C36_compressed_edit_fails), the object streams themselves and the cross-reference stream. *)
Definition edits_of (self : N * N) (l : list (xentry * obj)) (s : fsection) : Prop :=
  forall y, In y (f_items s) -> f_dirty y = true ->
    xnum (f_entry y) <> 0 /\ xnum (f_entry y) <> fst self /\ ~ is_object_stream l (xnum (f_entry y)) /\
    forall e o, In (e, o) l -> xnum e = xnum (f_entry y) -> xgen (f_entry y) = xgen e /\ forall k i, xdata e <> KComp k i.

(** what a program gets from the updated file: [start] is the object of every number and generation *)
Definition updated_objects (self : N * N) (l : list (xentry * obj)) (s : fsection) (stm : obj) (start : N -> N -> obj) : Prop :=
  (* changed and new objects *)
  (forall e o, changed_live [s] e o -> same_object o (start (xnum e) (xgen e))) /\
  (* numbers of neither *)
  (forall n g, (forall e o, In (e, o) l -> (xnum e, xgen e) <> (n, g)) -> ~ changed_number s n -> start n g = ONull) /\
  start (fst self) (snd self) = stm /\
  (* objects that were not changed *)
  (forall e o, In (e, o) l -> (xnum e, xgen e) <> self -> xnum e <> 0 -> ~ changed_number s (xnum e) ->
    match xdata e with
    | KFree _ => start (xnum e) (xgen e) = ONull
    | KComp _ _ => start (xnum e) (xgen e) = o
    | KUsed _ _ => ~ is_object_stream l (xnum e) -> same_object o (start (xnum e) (xgen e))
    end) /\
  (forall k, is_object_stream l k -> exists m d m' d', in_use l k 0 (OStream m d) /\ start k 0 = OStream m' d' /\
    forall x, all_bytes x -> ~ In x [str "Length"; str "N"; str "First"] -> sm_find x m' = sm_find x m).

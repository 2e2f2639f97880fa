(** C79: documents made from nothing. *)
From Coq Require Import List NArith ZArith Bool Lia String.
From Verif.Model Require Import Base SMap Object Equality Token Parser Xref Header FileWrite Chain Duplicates Update PageTree Save NewDoc.
From Verif.Spec Require Import Grammar Xref FileWrite Chain Unreferenced Duplicates PageTree Save NewDoc.
From Verif.Proof Require Import Tac NewDoc.
From Verif.Props Require Duplicates Save.
Import ListNotations.
Local Open Scope N_scope.

(** A program creates a document, makes pages and other objects, sets entries of the pages, and inserts and removes pages: every call
    answers as the sheet says, the objects are those of the sheet and the page tree lists the pages in their order. *)
Theorem C79_new_document : forall real id producer date, all_bytes id -> all_bytes producer -> all_bytes date ->
  forall l, N.of_nat (List.length l) + 12 < 2 ^ 63 -> good_actions real new_sheet l ->
  exists d0 d, create_document id producer date = Ok d0 /\ run d0 l = (d, right_answers new_sheet l) /\
    let f := document_objects (contents d) (n_chain d) in let s := sheet_after l in
    shows s f /\ entry_at f (ORef 1 0) (str "Pages") the_tree /\
    entry_at f the_tree (str "Count") (OInt (Z.of_nat (List.length (s_order s)))) /\
    entry_at f the_tree (str "Kids") (OArr (map (fun p => ORef p 0) (s_order s))).
Proof. intros real id producer date H1 H2 H3 l Hl Hg. apply (new_document real); assumption. Qed.

(** The document can be saved, and the file that is written opens again: it has as many pages as the program put into the document, in
    the same order and with the same entries, and the producer and the date.  Missing for the full claim: that the pages are still
    different objects, which is refuted below, and hashes that are zero. *)
Theorem C79_saved_partial : forall real id producer date, all_bytes id -> all_bytes producer -> all_bytes date ->
  forall hash order arrange rl l,
  any_order order -> any_arrangement arrange -> (forall v, hash v <> 0) ->
  N.of_nat (List.length l) + 12 < 2 ^ 63 -> good_actions real new_sheet l ->
  exists d0 d file, create_document id producer date = Ok d0 /\ run d0 l = (d, right_answers new_sheet l) /\
    save real hash order arrange d = Ok file /\
    let f := document_objects (contents d) (n_chain d) in
    shows (sheet_after l) f /\
    ((Z.of_nat (List.length file) < 2 ^ 63)%Z ->
     exists t trailer, open_file parser_dictionary rl file = Ok (PDF17, t, ODict trailer) /\
       let g := file_store rl file t in
       (exists root pages count kids refs,
          sm_find (str "Root") trailer = Some root /\ entry_at g root (str "Pages") pages /\
          entry_at g pages (str "Count") count /\ same_document real f g (OInt (Z.of_nat (List.length (s_order (sheet_after l))))) count /\
          entry_at g pages (str "Kids") kids /\ seen_at g kids = OArr refs /\
          Forall2 (same_document real f g) (map (fun p => ORef p 0) (s_order (sheet_after l))) refs) /\
       (exists info a b, sm_find (str "Info") trailer = Some info /\
          entry_at g info (str "Producer") a /\ text_of (seen_at g a) = Some producer /\
          entry_at g info (str "CreationDate") b /\ text_of (seen_at g b) = Some date)).
Proof. intros real id producer date H1 H2 H3 hash order arrange rl l. apply new_saved; assumption. Qed.

(** *** Concrete documents *)
Definition some_hash (v : value) : N := Duplicates.plain_hash v + 1.
Definition made_of (l : list action) : newdoc :=
  match create_document (str "id") (str "someone") (str "D:2020") with Ok d => fst (run d l) | _ => empty_document [] end.
Definition saved_as (d : newdoc) : bytes := match save Save.any_real some_hash Save.by_number Save.as_listed d with Ok f => f | _ => [] end.
Definition table_of (file : bytes) : list xentry := match open_file parser_dictionary Save.no_length file with Ok (_, t, _) => t | _ => [] end.

(** Two more pages, one of them before the first one; contents for it; then the first page the document had is taken out. *)
Definition case_actions : list action :=
  [NewPage; Pages (PInsert 5 1); NewObject (OStream [(str "Length", OInt 3)] (str "q Q")); SetEntry 5 (str "Contents") (ORef 6 0);
   NewPage; SetEntry 7 (str "Rotate") (OInt 90); Pages (PInsert 7 9); Pages (PAppend 7); Pages (PRemove 2); SetEntry 5 (str "Rotate") (OInt 180)].
Example C79_case : good_actions Save.any_real new_sheet case_actions /\ (forall v, some_hash v <> 0) /\
  right_answers new_sheet case_actions =
    [Number (Ok 5); Done (Ok tt); Number (Ok 6); Done (Ok tt); Number (Ok 7); Done (Ok tt); Done (Throw EGeneral); Done (Ok tt); Done (Ok tt); Done (Ok tt)] /\
  s_order (sheet_after case_actions) = [5; 7] /\ s_value (sheet_after case_actions) 5 (str "Contents") = Some (ORef 6 0) /\
  s_value (sheet_after case_actions) 5 (str "Rotate") = Some (OInt 180) /\ s_value (sheet_after case_actions) 7 (str "Rotate") = Some (OInt 90) /\
  let file := saved_as (made_of case_actions) in let g := file_store Save.no_length file (table_of file) in
  (0 < List.length file)%nat /\
  g 2 0 = ODict [(str "Count", OInt 2); (str "Kids", OArr [ORef 4 0; ORef 6 0]); (str "Type", OName (str "Pages"))] /\
  g 4 0 = ODict [(str "Contents", ORef 5 0); (str "Parent", ORef 2 0); (str "Rotate", OInt 180); (str "Type", OName (str "Page"))] /\
  g 5 0 = OStream [(str "Length", OInt 3)] (str "q Q").
Proof.
  split.
  { assert (Hb : forall s, forallb (fun c => c <? 256) s = true -> Forall is_byte s).
    { intros s H. rewrite forallb_forall in H. apply Forall_forall. intros c Hc. unfold is_byte. specialize (H c Hc). lia. }
    unfold case_actions. cbn [good_actions].
    split; [exact I|]. split; [split; [left; reflexivity|reflexivity]|]. split.
    { split; [|split; [discriminate|split; [discriminate|split; [|split]]]].
      - apply st_stream; [Verif.Props.Save.write_it| |reflexivity]. intros v Hv. Verif.Props.Save.one_of Hv. injection Hv as <-. exists 3%Z. split; [reflexivity|lia].
      - intros n g M. inversion M as [| | |? ? k o Hin M']; subst. destruct Hin as [E|[]]. injection E as <- <-. inversion M'.
      - intros neg m p R. inversion R as [| | |? ? k o Hin M']; subst. destruct Hin as [E|[]]. injection E as <- <-. inversion M'.
      - intros n g M. inversion M as [| | |? ? k o Hin M']; subst. destruct Hin as [E|[]]. injection E as <- <-. inversion M'. }
    assert (Hset : forall s p k v, In p (s_pages s) -> forallb (fun c => c <? 256) k = true -> k <> str "Type" -> k <> str "Parent" ->
      match v with OInt z => (-1000 < z < 1000)%Z | ORef n 0 => 1 <= n <= s_made s /\ n < 1000 | _ => False end -> good_action Save.any_real s (SetEntry p k v)).
    { intros s p k v A1 A2 A3 A4 A5. split; [exact A1|]. split; [apply Hb; exact A2|]. split; [exact A3|]. split; [exact A4|]. destruct v as [| |z| | | | |n g| | |]; try (destruct A5; fail).
      - split; [apply w_int; lia|]. split; [discriminate|]. split; intros; match goal with H : _ |- _ => inversion H; fail end.
      - destruct g; [|destruct A5]. split; [apply w_ref; [change (2 ^ 63) with 9223372036854775808|]; lia|]. split; [discriminate|]. split; [intros n' g' M; inversion M; subst; split; [lia|reflexivity]|].
        intros neg m q R. inversion R. }
    split; [apply Hset; [left; reflexivity|reflexivity|discriminate|discriminate|cbn; lia]|].
    split; [exact I|]. split; [apply Hset; [left; reflexivity|reflexivity|discriminate|discriminate|lia]|].
    split; [split; [left; reflexivity|reflexivity]|]. split; [left; reflexivity|]. split; [reflexivity|]. split; [|exact I].
    apply Hset; [right; left; reflexivity|reflexivity|discriminate|discriminate|lia]. }
  split; [intros v; unfold some_hash; lia|]. split; [vm_compute; reflexivity|]. split; [vm_compute; reflexivity|]. split; [vm_compute; reflexivity|]. split; [vm_compute; reflexivity|]. split; [vm_compute; reflexivity|].
  cbv zeta. split; [apply Nat.ltb_lt; vm_compute; reflexivity|]. split; [vm_compute; reflexivity|]. split; vm_compute; reflexivity.
Qed.

(** Finding: two pages that are still the same when the document is saved become one object.  In the open document a change of the one
    leaves the other as it was; in the file that was written both are object 3, so that a change of the one is a change of the other. *)
Theorem C79_equal_pages_refuted : let l := [NewPage; Pages (PAppend 5)] in
  let d := made_of l in let f := document_objects (contents d) (n_chain d) in
  let file := saved_as d in let g := file_store Save.no_length file (table_of file) in
  good_actions Save.any_real new_sheet l /\ s_order (sheet_after l) = [3; 5] /\
  entry_at f the_tree (str "Kids") (OArr [ORef 3 0; ORef 5 0]) /\
  save Save.any_real some_hash Save.by_number Save.as_listed d = Ok file /\
  entry_at g the_tree (str "Count") (OInt 2) /\ entry_at g the_tree (str "Kids") (OArr [ORef 3 0; ORef 3 0]).
Proof.
  cbv zeta. split; [split; [exact I|split; [left; reflexivity|exact I]]|]. split; [reflexivity|]. split; [eexists; split; vm_compute; reflexivity|]. split; [vm_compute; reflexivity|].
  split; eexists; split; vm_compute; reflexivity.
Qed.

(** Finding: the incremental save of a created document writes a file that does not open: there is nothing to append to, and nothing
    writes a header. *)
Theorem C79_incremental_refuted : let d := made_of [] in
  exists file, save_update d = Ok file /\ (300 < List.length file)%nat /\ forall rl v t o, open_file parser_dictionary rl file <> Ok (v, t, o).
Proof.
  cbv zeta. exists (match save_update (made_of []) with Ok f => f | _ => [] end). split; [vm_compute; reflexivity|]. split; [apply Nat.ltb_lt; vm_compute; reflexivity|].
  intros rl v t o. unfold open_file. match goal with |- context [rbind ?x _] => let y := eval vm_compute in x in change x with y end. discriminate.
Qed.

Print Assumptions C79_new_document.
Print Assumptions C79_saved_partial.
Print Assumptions C79_equal_pages_refuted.
Print Assumptions C79_incremental_refuted.

(** C61: a document saved with the default settings is, when opened again, the same document. *)
From Coq Require Import List NArith ZArith Bool Lia String Sorted Permutation.
From Verif.Model Require Import Base SMap Object Equality Token Parser Xref Header FileWrite Chain Merge Unreferenced Duplicates Save.
From Verif.Spec Require Import Grammar Xref FileWrite Chain Merge Unreferenced Equality Duplicates Save.
From Verif.Proof Require Import Tac Unreferenced Save SaveOk.
From Verif.Props Require Duplicates.
Import ListNotations.
Local Open Scope N_scope.

(** For every document whose sections are tables, with any number of updates, with every hash function and every order of the hash
    tables, whatever was deleted and whatever number was used again: the file that is written opens, has the version that was asked for, and its Root, Info and ID look the same at any depth
    as those of the document, whatever was merged, left out and renumbered. *)
Theorem C61_default_save_partial : forall real hash content order arrange rl v newest older file,
  let c := newest :: older in let f := document_objects content c in
  any_order order -> any_arrangement arrange ->
  plain_tables c -> N.of_nat (S (List.length (flat_map s_entries c))) < 2 ^ 63 ->
  writable (ODict (s_trailer newest)) -> sm_find (str "XRefStm") (s_trailer newest) = None ->
  orderly_document real hash c f (ODict (s_trailer newest)) ->
  save_file real hash content order arrange v c = Ok file -> (Z.of_nat (List.length file) < 2 ^ 63)%Z ->
  exists t trailer', open_file parser_dictionary rl file = Ok (v, t, ODict trailer') /\
    forall key, In key [str "Root"; str "Info"; str "ID"] ->
      match sm_find key (s_trailer newest), sm_find key trailer' with
      | Some a, Some b => same_document real f (file_store rl file t) a b
      | None, None => True
      | _, _ => False
      end.
Proof. exact default_save. Qed.

(** Such a document can always be saved, when its real numbers are within the range of the integers: no stage fails. *)
Theorem C61_save_succeeds_partial : forall real hash content order arrange v newest older,
  let c := newest :: older in let f := document_objects content c in
  any_order order -> any_arrangement arrange ->
  plain_tables c -> N.of_nat (S (List.length (flat_map s_entries c))) < 2 ^ 63 ->
  writable (ODict (s_trailer newest)) -> sm_find (str "XRefStm") (s_trailer newest) = None ->
  orderly_document real hash c f (ODict (s_trailer newest)) -> live_reals_within_range real f (ODict (s_trailer newest)) ->
  exists file, save_file real hash content order arrange v c = Ok file.
Proof. exact save_ok. Qed.

(** *** Concrete documents *)
Lemma document_cases : forall content c (P : N -> N -> obj -> Prop), (forall n g, P n g ONull) ->
  (forall s e, In s c -> In e (s_entries s) -> P (xnum e) (xgen e) (content e)) ->
  (forall s, In s c -> s_hybrid s = None) -> forall n g, P n g (document_objects content c n g).
Proof.
  intros content c P H0 H1 Hh n g. unfold document_objects. destruct (resolve_entry n g c) as [e|] eqn:E; [|apply H0].
  unfold resolve_entry in E. destruct (chain_entry n g c) as [e'|] eqn:Ec; [|discriminate]. assert (e' = e) by (destruct (xdata e'); congruence). subst e'. clear E.
  revert H1 Hh Ec. clear. intros H1 Hh. induction c as [|s c IH]; [discriminate|]. cbn [chain_entry]. intros Ec.
  assert (Hrest : chain_entry n g c = Some e -> P n g (content e)).
  { intros E. apply IH; [intros s' e' A B; apply (H1 s' e'); [right; exact A|exact B]|intros s' A; apply Hh; right; exact A|exact E]. }
  destruct (sec_find n s) as [x|] eqn:Es; [|auto]. destruct (xgen x =? g) eqn:Eg; [|auto]. injection Ec as ->.
  assert (Hx : In e (s_entries s) /\ xnum e = n).
  { unfold sec_find in Es. destruct (xfind n (s_entries s)) as [y|] eqn:Ey.
    - injection Es as ->. apply find_some in Ey. split; [apply Ey|lia].
    - rewrite (Hh s) in Es by (left; reflexivity). destruct (s_kind s); discriminate. }
  destruct Hx as (Hin & <-). replace g with (xgen e) by lia. apply (H1 s e); [left; reflexivity|exact Hin].
Qed.
Fixpoint reals (o : obj) : list (bool * N * N) :=
  match o with
  | OReal neg m p => [(neg, m, p)]
  | OArr l => flat_map reals l
  | ODict l | OStream l _ => flat_map (fun e => reals (snd e)) l
  | _ => []
  end.
Lemma reals_inside : forall neg m p o, real_inside neg m p o -> In (neg, m, p) (reals o).
Proof.
  intros neg m p o H. induction H as [|l o Hin H IH|l k o Hin H IH|l d k o Hin H IH]; cbn [reals]; [left; reflexivity|apply in_flat_map..].
  - exists o. auto.
  - exists (k, o). auto.
  - exists (k, o). auto.
Qed.
Definition in_use (n : N) : xentry := {| xnum := n; xgen := 0; xdata := KUsed (-1) true |}.
Definition table (l : list N) (trailer : list (bytes * obj)) : section :=
  {| s_kind := STable; s_entries := {| xnum := 0; xgen := 65535; xdata := KFree 0 |} :: map in_use l; s_hybrid := None; s_trailer := trailer |}.
Definition any_real (neg : bool) (m p : N) : dbl := {| dm := if neg then - Z.of_N m else Z.of_N m; de := - Z.of_N p |}.
Definition by_number (items : list (xentry * obj)) : list N :=
  map (fun p => xnum (fst p)) (filter (fun p => match xdata (fst p) with KFree _ => false | _ => true end) items).
Definition as_listed (l : list ditem) : list ditem := l.
Definition no_length (_ _ : N) : res Z := Throw EGeneral.
Lemma by_number_any : any_order by_number.
Proof.
  intros items n. unfold by_number. rewrite in_map_iff. split.
  - intros ([e o] & En & Hin). apply filter_In in Hin. cbn [fst] in *. destruct Hin as (Hin & Hd). exists e, o. split; [exact Hin|]. split; [exact En|]. intros next E. rewrite E in Hd. discriminate.
  - intros (e & o & Hin & En & Hd). exists (e, o). split; [exact En|]. apply filter_In. split; [exact Hin|]. cbn [fst]. destruct (xdata e) as [next| |]; [exfalso; apply (Hd next); reflexivity|reflexivity..].
Qed.
Lemma as_listed_any : any_arrangement as_listed.
Proof. intros l. apply Permutation_refl. Qed.

(** A document that was updated once.  Objects 4 and 6 are equal, 2 was replaced, and 3, 5 and 7 are missing.  Object 8 was deleted, it refers
    to an object that does not exist; the number 10 was given to another object. *)
Definition case_content (e : xentry) : obj :=
  match xnum e, xdata e with
  | 1, _ => ODict [(str "Pages", ORef 2 0); (str "Type", OName (str "Catalog"))]
  | 2, KUsed 700 _ => ODict [(str "Count", OInt 2); (str "Kids", OArr [ORef 4 0; ORef 6 0; ORef 9 0; ORef 10 1])]
  | 2, _ => ODict [(str "Count", OInt 0); (str "Kids", OArr [ORef 8 0])]
  | 4, _ => ODict [(str "Parent", ORef 2 0); (str "Type", OName (str "Page")); (str "UserUnit", OReal false 15 1)]
  | 6, _ => ODict [(str "Parent", ORef 2 0); (str "Type", OName (str "Page")); (str "UserUnit", OReal false 15 1)]
  | 8, _ => OArr [ORef 77 0; ORef 10 0]
  | 9, _ => OStream [(str "Length", OInt 3); (str "Parent", ORef 2 0)] (str "q Q")
  | 10, KUsed 800 _ => ODict [(str "Parent", ORef 2 0); (str "Type", OName (str "Pages"))]
  | 10, _ => ORef 8 0
  | _, _ => ONull
  end.
Definition case_document : chain :=
  [ {| s_kind := STable; s_entries := [{| xnum := 2; xgen := 0; xdata := KUsed 700 true |}; {| xnum := 8; xgen := 1; xdata := KFree 0 |}; in_use 9;
         {| xnum := 10; xgen := 1; xdata := KUsed 800 true |}]; s_hybrid := None;
       s_trailer := [(str "Prev", OInt 12); (str "Root", ORef 1 0); (str "Size", OInt 11)] |};
    table [1; 2; 4; 6; 8; 10] [(str "Root", ORef 1 0); (str "Size", OInt 11)] ].

Lemma live_within : forall f trailer l, (forall n g, mentions n g trailer -> In (n, g) l) ->
  (forall m gm n g, In (m, gm) l -> mentions n g (f m gm) -> In (n, g) l) -> forall n g, live f trailer n g -> In (n, g) l.
Proof. intros f trailer l H1 H2 n g L. induction L as [n g H|m gm n g _ IH H]; [apply H1; exact H|apply (H2 m gm n g IH H)]. Qed.
Ltac one_of H := cbn in H; repeat match type of H with _ \/ _ => destruct H as [H|H] | False => destruct H end.
Ltac write_it := repeat first [apply st_stream | apply st_direct | apply w_dict | constructor]; cbn; unfold is_byte; try lia; try discriminate; try (apply kl_less; cbn; lia).
Definition case_live : list (N * N) := [(1, 0); (2, 0); (4, 0); (6, 0); (9, 0); (10, 1)].
Lemma case_within : forall n g, live (document_objects case_content case_document) (ODict (s_trailer (hd (table [] []) case_document))) n g -> In (n, g) case_live.
Proof.
  apply live_within.
  - intros n g H. apply refs_mentions in H. cbn in H. one_of H. injection H as <- <-. cbn. tauto.
  - intros m gm n g Hm H. apply refs_mentions in H. one_of Hm; injection Hm as <- <-; one_of H; injection H as <- <-; cbn; tauto.
Qed.
Example C61_case : exists newest older file t trailer', case_document = newest :: older /\
  plain_tables case_document /\ writable (ODict (s_trailer newest)) /\
  orderly_document any_real Duplicates.plain_hash case_document (document_objects case_content case_document) (ODict (s_trailer newest)) /\
  live_reals_within_range any_real (document_objects case_content case_document) (ODict (s_trailer newest)) /\
  save_file any_real Duplicates.plain_hash case_content by_number as_listed PDF14 case_document = Ok file /\
  open_file parser_dictionary no_length file = Ok (PDF14, t, ODict trailer') /\ List.length t = 6%nat /\
  file_store no_length file t 2 0 = ODict [(str "Count", OInt 2); (str "Kids", OArr [ORef 3 0; ORef 3 0; ORef 4 0; ORef 5 1])].
Proof.
  eexists. eexists. eexists. eexists. eexists. split; [reflexivity|].
  split; [|split; [|split; [|split; [|split; [vm_compute; reflexivity|split; [vm_compute; reflexivity|split; vm_compute; reflexivity]]]]]].
  - split; [discriminate|]. intros s Hs. one_of Hs; subst s; (split; [reflexivity|]); (split; [reflexivity|]); (split; [repeat constructor; cbn; intuition discriminate|]);
      intros e He; one_of He; subst e; cbn; split; try lia; exact I || reflexivity.
  - write_it.
  - constructor; intros n g L; apply case_within in L.
    + one_of L; injection L as <- <-; vm_compute; discriminate.
    + intros newer s older e Ec He En Hd Hn. destruct newer as [|x newer].
      * injection Ec as <- <-. one_of He; subst e; one_of L; injection L as <- <-; try discriminate En; reflexivity || destruct Hd.
      * injection Ec as <- Ec. destruct newer as [|y newer]; [|destruct newer; discriminate Ec]. injection Ec as <- <-.
        one_of He; subst e; one_of L; injection L as <- <-; try discriminate En; try reflexivity.
        exfalso. apply (Hn _ {| xnum := 10; xgen := 1; xdata := KUsed 800 true |} (or_introl eq_refl)); [cbn; tauto|reflexivity|reflexivity].
    + one_of L; injection L as <- <-; (split; [vm_compute|vm_compute; discriminate]); try solve [write_it].
      apply st_stream; [write_it| |reflexivity]. intros v Hv. one_of Hv; [|discriminate]. injection Hv as <-. exists 3%Z. split; [reflexivity|lia].
    + one_of L; injection L as <- <-; try solve [left; right; vm_compute; discriminate]; try solve [left; left; cbn; repeat constructor].
      right. exists [(str "Length", OInt 3); (str "Parent", ORef 2 0)], (str "q Q"). split; [reflexivity|]. intros n' g' m' L E. apply case_within in L.
      one_of L; injection L as <- <-; vm_compute in E; try discriminate E. split; reflexivity.
  - intros n g neg m p L H. apply case_within in L. apply reals_inside in H. one_of L; injection L as <- <-; vm_compute in H; one_of H; injection H as <- <- <-; vm_compute; reflexivity.
Qed.

(** Finding: a reference to an object that was deleted leads to null; after the save it leads to the deleted object, which is in the file
    again. *)
Definition deleted_content (e : xentry) : obj :=
  match xnum e with
  | 1 => ODict [(str "Pages", ORef 2 0); (str "PieceInfo", ORef 3 0); (str "Type", OName (str "Catalog"))]
  | 2 => ODict [(str "Count", OInt 0); (str "Kids", OArr [])]
  | 3 => OLit (str "secret")
  | _ => ONull
  end.
Definition deleted_document : chain :=
  [ {| s_kind := STable; s_entries := [{| xnum := 3; xgen := 0; xdata := KFree 0 |}]; s_hybrid := None;
       s_trailer := [(str "Prev", OInt 12); (str "Root", ORef 1 0); (str "Size", OInt 4)] |};
    table [1; 2; 3] [(str "Root", ORef 1 0); (str "Size", OInt 4)] ].
Theorem C61_deleted_refuted : let f := document_objects deleted_content deleted_document in
  plain_tables deleted_document /\ f 3 0 = ONull /\ In (str "PieceInfo", ORef 3 0) (dict_entries (f 1 0)) /\
  exists file t trailer', save_file any_real Duplicates.plain_hash deleted_content by_number as_listed PDF14 deleted_document = Ok file /\
    open_file parser_dictionary no_length file = Ok (PDF14, t, ODict trailer') /\ sm_find (str "Root") trailer' = Some (ORef 1 0) /\
    In (str "PieceInfo", ORef 3 0) (dict_entries (file_store no_length file t 1 0)) /\ file_store no_length file t 3 0 = OLit (str "secret").
Proof.
  cbv zeta. split; [|split; [|split]].
  - split; [discriminate|]. intros s Hs. one_of Hs; subst s; (split; [reflexivity|]); (split; [reflexivity|]); (split; [repeat constructor; cbn; intuition discriminate|]);
      intros e He; one_of He; subst e; cbn; split; try lia; exact I || reflexivity.
  - reflexivity.
  - cbn. tauto.
  - eexists. eexists. eexists. split; [vm_compute; reflexivity|]. split; [vm_compute; reflexivity|]. split; [reflexivity|]. split; [vm_compute; right; left; reflexivity|vm_compute; reflexivity].
Qed.

(** Finding: a reference to an object that does not exist keeps its number while the objects are renumbered, and afterwards leads to
    an object that has nothing to do with it. *)
Definition dangling_content (e : xentry) : obj :=
  match xnum e with
  | 1 => ODict [(str "Metadata", ORef 3 0); (str "Pages", ORef 5 0); (str "PieceInfo", ORef 7 0); (str "Type", OName (str "Catalog"))]
  | 5 => ODict [(str "Count", OInt 0); (str "Kids", OArr [])]
  | 7 => OLit (str "secret")
  | _ => ONull
  end.
Definition dangling_document : chain := [table [1; 5; 7] [(str "Root", ORef 1 0); (str "Size", OInt 8)]].
Theorem C61_dangling_refuted : let f := document_objects dangling_content dangling_document in
  plain_tables dangling_document /\ nothing_deleted dangling_document /\ stores_objects f /\ hashes_steady any_real Duplicates.plain_hash f /\
  exists file t trailer', save_file any_real Duplicates.plain_hash dangling_content by_number as_listed PDF14 dangling_document = Ok file /\
    open_file parser_dictionary no_length file = Ok (PDF14, t, ODict trailer') /\ sm_find (str "Root") trailer' = Some (ORef 1 0) /\
    In (str "Metadata", ORef 3 0) (dict_entries (f 1 0)) /\ f 3 0 = ONull /\
    In (str "Metadata", ORef 3 0) (dict_entries (file_store no_length file t 1 0)) /\ file_store no_length file t 3 0 = OLit (str "secret") /\
    ~ same_document any_real f (file_store no_length file t) (ORef 1 0) (ORef 1 0).
Proof.
  cbv zeta. split; [|split; [|split; [|split]]].
  - split; [discriminate|]. intros s Hs. one_of Hs; subst s; (split; [reflexivity|]); (split; [reflexivity|]); (split; [repeat constructor; cbn; intuition discriminate|]);
      intros e He; one_of He; subst e; cbn; split; try lia; exact I || reflexivity.
  - intros newer s older e s' e' Ec He Hn Hs' He' En Hd. destruct newer as [|x newer]; [injection Ec as <- <-; destruct Hs'|]. apply (f_equal (@tl _)) in Ec. destruct newer; discriminate.
  - intros n g. apply (document_cases dangling_content dangling_document (fun _ _ o => storable o /\ forall n' g', o <> ORef n' g')).
    + split; [apply st_direct; constructor|discriminate].
    + intros s e Hs He. one_of Hs; subst s; one_of He; subst e; (split; [cbn [dangling_content xnum xdata in_use]|discriminate]); solve [write_it].
    + intros s Hs. one_of Hs; subst s; reflexivity.
  - intros n g. left. apply (document_cases dangling_content dangling_document (fun n g o =>
      steady Duplicates.plain_hash {| d_num := n; d_gen := g; d_comp := false; d_value := value_of any_real o; d_cache := 0 |})).
    + intros n0 g0. left. constructor.
    + intros s e Hs He. one_of Hs; subst s; one_of He; subst e; first [solve [right; vm_compute; discriminate]|solve [left; cbn; repeat constructor]].
    + intros s Hs. one_of Hs; subst s; reflexivity.
  - eexists. eexists. eexists. split; [vm_compute; reflexivity|]. split; [vm_compute; reflexivity|]. split; [reflexivity|].
    split; [left; reflexivity|]. split; [reflexivity|]. split; [vm_compute; left; reflexivity|]. split; [vm_compute; reflexivity|].
    intros H. assert (H2 := H 2%nat). match type of H2 with resembles _ _ ?fs _ _ _ => assert (E1 : fs 1 0 = ODict [(str "Metadata", ORef 3 0); (str "Pages", ORef 2 0); (str "PieceInfo", ORef 3 0); (str "Type", OName (str "Catalog"))]) by (vm_compute; reflexivity); assert (E3 : fs 3 0 = OLit (str "secret")) by (vm_compute; reflexivity); set (F := fs) in * end.
    cbn [resembles seen_at] in H2. rewrite E1 in H2.
    inversion H2 as [| | |? ? v0 T0 _|? ? N0 _ _| |? ? (D1 & _)|]; [discriminate T0|destruct N0|]. destruct (D1 (str "Metadata") (ORef 3 0) (or_introl eq_refl) (fun x => x)) as (b & Hin & R).
    one_of Hin; try discriminate Hin. injection Hin as <-. cbn [seen_at] in R. rewrite E3 in R. change (document_objects dangling_content dangling_document 3 0) with ONull in R.
    inversion R as [| | |? ? v0 T0 T1|? ? N0 N1 _| | |]; [discriminate T0|destruct N0].
Qed.

(** Finding: the same happens to a reference to an object that is there and is null. *)
Definition null_content (e : xentry) : obj :=
  match xnum e with
  | 1 => ODict [(str "Metadata", ORef 4 0); (str "Pages", ORef 6 0); (str "PieceInfo", ORef 7 0); (str "Type", OName (str "Catalog")); (str "URI", ORef 9 0)]
  | 6 => ODict [(str "Count", OInt 0); (str "Kids", OArr [])]
  | 7 => OLit (str "public")
  | 9 => OLit (str "secret")
  | _ => ONull
  end.
Definition null_document : chain := [table [1; 4; 6; 7; 9] [(str "Root", ORef 1 0); (str "Size", OInt 10)]].
Theorem C61_null_target_refuted : let f := document_objects null_content null_document in
  plain_tables null_document /\ stores_objects f /\
  exists file t trailer', save_file any_real Duplicates.plain_hash null_content by_number as_listed PDF14 null_document = Ok file /\
    open_file parser_dictionary no_length file = Ok (PDF14, t, ODict trailer') /\ sm_find (str "Root") trailer' = Some (ORef 1 0) /\
    In (str "Metadata", ORef 4 0) (dict_entries (f 1 0)) /\ resolve_entry 4 0 null_document <> None /\ f 4 0 = ONull /\
    In (str "Metadata", ORef 4 0) (dict_entries (file_store no_length file t 1 0)) /\ file_store no_length file t 2 0 = ONull /\
    file_store no_length file t 4 0 = OLit (str "public").
Proof.
  cbv zeta. split; [|split].
  - split; [discriminate|]. intros s Hs. one_of Hs; subst s; (split; [reflexivity|]); (split; [reflexivity|]); (split; [repeat constructor; cbn; intuition discriminate|]);
      intros e He; one_of He; subst e; cbn; split; try lia; exact I || reflexivity.
  - intros n g. apply (document_cases null_content null_document (fun _ _ o => storable o /\ forall n' g', o <> ORef n' g')).
    + split; [apply st_direct; constructor|discriminate].
    + intros s e Hs He. one_of Hs; subst s; one_of He; subst e; (split; [cbn [null_content xnum xdata in_use]|discriminate]); solve [write_it].
    + intros s Hs. one_of Hs; subst s; reflexivity.
  - eexists. eexists. eexists. split; [vm_compute; reflexivity|]. split; [vm_compute; reflexivity|]. split; [reflexivity|].
    split; [left; reflexivity|]. split; [discriminate|]. split; [reflexivity|]. split; [vm_compute; left; reflexivity|]. split; vm_compute; reflexivity.
Qed.

Print Assumptions C61_default_save_partial.
Print Assumptions C61_save_succeeds_partial.
Print Assumptions C61_deleted_refuted.
Print Assumptions C61_dangling_refuted.
Print Assumptions C61_null_target_refuted.

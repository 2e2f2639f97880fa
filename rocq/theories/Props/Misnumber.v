(** C74: objects are found by the numbers written in front of them. *)
From Coq Require Import List NArith ZArith Bool Permutation Sorted Lia.
From Verif.Model Require Import Base Object Misnumber.
From Verif.Spec Require Import Misnumber.
From Verif.Proof Require Import Tac.
From Verif.Proof Require Misnumber.
Import ListNotations.
Local Open Scope N_scope.

(** Whatever was looked up before and however wrong the tables are, an object that is handed out has the number that was asked for and
    stands in the file. *)
Theorem C74_right_object : forall read_at read_compressed arrange c history n g o,
  by_number arrange -> opened c ->
  snd (lookup read_at read_compressed arrange (lookups read_at read_compressed arrange c history) n g) = Ok (Some o) ->
  present read_at read_compressed c n g o.
Proof.
  intros ra rc arr c h n g o Ha Ho H. eapply Misnumber.right_object; eauto. intro t. apply Ha.
Qed.

(** If the entries give the right numbers, every lookup after every history gives what the tables say. *)
Theorem C74_consistent_partial : forall read_at read_compressed arrange c history n g,
  opened c -> (forall s, is_listed c s -> truthful read_at s) ->
  snd (lookup read_at read_compressed arrange (lookups read_at read_compressed arrange c history) n g) = by_table read_at read_compressed c n g.
Proof. intros. apply Misnumber.consistent; auto. Qed.

(** Once a lookup met an entry that leads to another object, every object is found by its own number, if all entries can be read, the
    number is not claimed by another entry of its section, nor by an entry of a newer section. *)
Theorem C74_recovered_partial : forall read_at read_compressed arrange c history n g s,
  by_number arrange -> opened c -> (forall s, is_listed c s -> readable read_at read_compressed s) ->
  In (n, g) history -> meets c n g s -> misleads read_at s n g ->
  forall newer t older e off n' g' o,
  c = newer ++ t :: older -> In e t -> sl_data e = SUsed off None -> read_at off = Ok (n', g', o) ->
  (forall s, is_listed newer s -> ~ speaks_of read_at s n') -> (forall s, In s t -> speaks_of read_at s n' -> s = e) ->
  snd (lookup read_at read_compressed arrange (lookups read_at read_compressed arrange c history) n' g') = Ok (Some o).
Proof. intros ra rc arr c h n g s Ha. intros. eapply Misnumber.recovered; eauto. intro t'. apply Ha. Qed.

(** A table whose numbers are one too high; two objects, 1 and 2, at offsets 10 and 20. *)
Definition used (n g : N) (off : Z) : slot := {| sl_code := n; sl_num := n; sl_gen := g; sl_data := SUsed off None |}.
Definition free (n g : N) : slot := {| sl_code := n; sl_num := n; sl_gen := g; sl_data := SFree |}.
Definition two_objects (off : Z) : res (N * N * obj) :=
  if (off =? 10)%Z then Ok (1, 0, OInt 11) else if (off =? 20)%Z then Ok (2, 0, OInt 22) else Throw EParse.
Definition no_streams (i j : N) : res obj := Throw EGeneral.
Definition shifted : list table := [[used 2 0 10; used 3 0 20]].

Lemma opened_one : forall t, NoDup (map sl_num t) -> Forall (fun s => sl_code s = sl_num s /\ match sl_data s with SUsed _ (Some _) => False | _ => True end) t -> opened [t].
Proof.
  intros t H1 H2 u [ <- | [] ]. split; auto. apply Forall_forall. intros s Hs. rewrite Forall_forall in H2. destruct (H2 s Hs) as [ H3 H4 ].
  split; auto. intros off o E. rewrite E in H4. exact H4.
Qed.
Lemma shifted_opened : opened shifted.
Proof.
  apply opened_one.
  - cbn [map used sl_num]. repeat constructor; cbn [In]; lia.
  - repeat constructor.
Qed.

(** What is found depends on what was looked up before: object 1 is not found, and is found after object 2 was asked for. *)
Theorem C74_order_refuted : forall arrange, by_number arrange ->
  opened shifted /\ (forall s, is_listed shifted s -> readable two_objects no_streams s) /\ present two_objects no_streams shifted 1 0 (OInt 11) /\
  snd (lookup two_objects no_streams arrange shifted 1 0) = Ok None /\
  snd (lookup two_objects no_streams arrange (lookups two_objects no_streams arrange shifted [(2, 0)]) 1 0) = Ok (Some (OInt 11)).
Proof.
  intros arr Ha.
  assert (Hr : forall s, is_listed shifted s -> readable two_objects no_streams s).
  { intros s [ t [ [ <- | [] ] [ <- | [ <- | [] ] ] ] ]; unfold readable; cbn [sl_data used]; do 3 eexists; reflexivity. }
  split; [ exact shifted_opened | ]. split; [ exact Hr | ]. split; [ | split ].
  - exists (used 2 0 10). split; [ exists [used 2 0 10; used 3 0 20]; split; left; reflexivity | ]. left. exists 10%Z. split; reflexivity.
  - reflexivity.
  - apply (C74_recovered_partial two_objects no_streams arr shifted [(2, 0)] 2 0 (used 2 0 10) Ha shifted_opened Hr (or_introl eq_refl)
             eq_refl) with (newer := []) (older := []) (t := [used 2 0 10; used 3 0 20]) (e := used 2 0 10) (off := 10%Z).
    + split; [ reflexivity | ]. split; [ reflexivity | ]. exists 10%Z, 1, 0, (OInt 11). repeat split; try reflexivity. discriminate.
    + reflexivity.
    + left. reflexivity.
    + reflexivity.
    + reflexivity.
    + intros s [ t [ [] _ ] ].
    + intros s [ <- | [ <- | [] ] ]; [ reflexivity | ]. intros [ g [ o H ] ]. cbv in H. discriminate.
Qed.

(** The objects whose number no entry gives are not found at first, whether they are in the file or not. *)
Theorem C74_unlisted_number_refuted : forall read_at read_compressed arrange c n g,
  opened c -> (forall s, is_listed c s -> (sl_num s, sl_gen s) <> (n, g)) ->
  snd (lookup read_at read_compressed arrange c n g) = Ok None.
Proof.
  intros ra rc arr c n g Ho H. unfold lookup. destruct (pick n g c) as [ [ [ c1 [ [ a s ] b ] ] c2 ] | ] eqn:E; [ | reflexivity ].
  exfalso. destruct (Misnumber.pick_app _ _ _ _ _ _ _ _ E) as [ -> [ Hn Hg ] ]. apply (H s); [ apply Misnumber.listed_mid | congruence ].
Qed.

(** One entry that cannot be read makes the search for every misnumbered object fail. *)
Theorem C74_damaged_refuted : forall read_at read_compressed arrange c n g s d,
  opened c -> meets c n g s -> misleads read_at s n g -> is_listed c d -> ~ readable read_at read_compressed d ->
  forall r, snd (lookup read_at read_compressed arrange c n g) <> Ok r.
Proof. intros. eapply Misnumber.damaged; eauto. Qed.

(** Sorting by number in two ways that differ for entries with the same number. *)
Fixpoint insert_by_number (s : slot) (t : table) : table :=
  match t with
  | [] => [s]
  | x :: r => if sl_num s <=? sl_num x then s :: t else x :: insert_by_number s r
  end.
Definition sort_stable (t : table) : table := fold_right insert_by_number [] t.
Definition sort_other (t : table) : table := sort_stable (rev t).
Lemma insert_perm : forall s t, Permutation (insert_by_number s t) (s :: t).
Proof.
  intros s t. induction t as [ | x r IH ]; cbn [insert_by_number]; auto. cif; auto.
  apply perm_trans with (x :: s :: r); [ constructor; auto | apply perm_swap ].
Qed.
Lemma insert_sorted : forall s t, StronglySorted (fun a b => sl_num a <= sl_num b) t -> StronglySorted (fun a b => sl_num a <= sl_num b) (insert_by_number s t).
Proof.
  intros s t H. induction H as [ | x r Hr IH Hx ]; cbn [insert_by_number]; [ repeat constructor | ]. cif.
  - constructor; [ constructor; auto | ]. constructor; [ lia | ]. apply Forall_forall. intros y Hy. rewrite Forall_forall in Hx. specialize (Hx y Hy). lia.
  - constructor; auto. apply Forall_forall. intros y Hy. apply (Permutation_in y (insert_perm s r)) in Hy.
    destruct Hy as [ <- | Hy ]; [ lia | ]. rewrite Forall_forall in Hx. auto.
Qed.
Lemma sort_stable_by_number : by_number sort_stable.
Proof.
  intro t. unfold sort_stable. induction t as [ | x r [ IH1 IH2 ] ]; cbn [fold_right]; [ split; constructor | ]. split.
  - apply perm_trans with (x :: fold_right insert_by_number [] r); [ apply insert_perm | constructor; auto ].
  - apply insert_sorted. auto.
Qed.
Lemma sort_other_by_number : by_number sort_other.
Proof.
  intro t. destruct (sort_stable_by_number (rev t)) as [ H1 H2 ]. split; auto.
  apply perm_trans with (rev t); auto. apply Permutation_sym. apply Permutation_rev.
Qed.

(** The table of a file with two objects, numbered from 1 instead of 0. *)
Definition from_one : list table := [[free 1 65535; used 2 0 10; used 3 0 20]].

(** The entries are sorted with an order that does not tell the free entry, which is now number 1, from object 1: object 1 may be lost. *)
Theorem C74_collision_refuted :
  opened from_one /\ (forall s, is_listed from_one s -> readable two_objects no_streams s) /\ by_number sort_stable /\ by_number sort_other /\
  snd (lookup two_objects no_streams sort_stable (lookups two_objects no_streams sort_stable from_one [(2, 0)]) 1 0) = Ok (Some (OInt 11)) /\
  snd (lookup two_objects no_streams sort_other (lookups two_objects no_streams sort_other from_one [(2, 0)]) 1 0) = Ok None.
Proof.
  split; [ | split; [ | split; [ | split; [ | split ] ] ] ].
  - apply opened_one.
    + cbn [map used free sl_num]. repeat constructor; cbn [In]; lia.
    + repeat constructor.
  - intros s [ t [ [ <- | [] ] [ <- | [ <- | [ <- | [] ] ] ] ] ]; unfold readable; cbn [sl_data used free]; [ exact I | | ]; do 3 eexists; reflexivity.
  - exact sort_stable_by_number.
  - exact sort_other_by_number.
  - vm_compute. reflexivity.
  - vm_compute. reflexivity.
Qed.

(** The same tables, with the right numbers and with an object that cannot be read. *)
Example C74_case :
  (let c := [[used 3 0 10]; [free 0 65535; used 1 0 10; used 2 0 20]] in
   snd (lookup two_objects no_streams sort_stable (lookups two_objects no_streams sort_stable c [(2, 0); (3, 0)]) 1 0) = Ok (Some (OInt 11)) /\
   snd (lookup two_objects no_streams sort_stable (lookups two_objects no_streams sort_stable c [(2, 0); (3, 0)]) 3 0) = Ok None) /\
  (let c := [[free 0 65535; used 1 0 10; used 2 0 20]] in
   (forall s, is_listed c s -> truthful two_objects s) /\ by_table two_objects no_streams c 2 0 = Ok (Some (OInt 22))) /\
  (let c := [[used 2 0 10; used 3 0 20; used 9 0 30]] in
   meets c 2 0 (used 2 0 10) /\ misleads two_objects (used 2 0 10) 2 0 /\ ~ readable two_objects no_streams (used 9 0 30) /\
   snd (lookup two_objects no_streams sort_stable c 2 0) = Throw EParse).
Proof.
  cbv zeta. split; [ split; vm_compute; reflexivity | ]. split; [ split; [ | reflexivity ] | ].
  - intros s [ t [ [ <- | [] ] [ <- | [ <- | [ <- | [] ] ] ] ] ] off l E; cbn [sl_data used free] in E; inversion E; subst; eexists; reflexivity.
  - split; [ reflexivity | ]. split; [ | split ].
    + split; [ reflexivity | ]. split; [ reflexivity | ]. exists 10%Z, 1, 0, (OInt 11). repeat split; try reflexivity. discriminate.
    + intros [ n [ g [ o H ] ] ]. vm_compute in H. discriminate.
    + vm_compute. reflexivity.
Qed.

Print Assumptions C74_right_object.
Print Assumptions C74_consistent_partial.
Print Assumptions C74_recovered_partial.
Print Assumptions C74_order_refuted.
Print Assumptions C74_unlisted_number_refuted.
Print Assumptions C74_damaged_refuted.
Print Assumptions C74_collision_refuted.

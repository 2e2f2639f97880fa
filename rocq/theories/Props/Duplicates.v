(** C30: merging equal indirect objects. *)
From Coq Require Import List NArith ZArith Bool Lia String.
From Verif.Model Require Import Base Arith Buffer Equality Duplicates.
From Verif.Spec Require Import Equality Duplicates.
From Verif.Proof Require Import Tac Equality Duplicates.
Import ListNotations.
Open Scope N_scope.

(** One round, for any hash functions and any order of the entries: when the hash of the objects that have a duplicate does not follow
    their references (no stream among them has references), everything still says the same and no reference is lost. *)
Theorem C30_one_round_partial : forall hash l trailer l' trailer',
  ids_distinct l -> no_reference_objects l -> (forall x, In x l -> d_comp x = false -> duplicate l x -> steady hash x) ->
  round hash l trailer = Ok (Some (l', trailer')) -> merged l trailer l' trailer' /\ (List.length l' < List.length l)%nat.
Proof.
  intros hash l trailer l' trailer' Hd Hn Hs E. split.
  - apply (round_spec hash l trailer l' trailer' Hd Hn Hs E).
  - apply (round_shrinks _ _ _ _ _ Hd E).
Qed.

(** All rounds. *)
Theorem C30_all_rounds_partial : forall hash l trailer l' trailer',
  ids_distinct l -> no_reference_objects l -> (forall x, In x l -> d_comp x = false -> steady hash x \/ own_data l x) ->
  remove_duplicates hash l trailer = Ok (l', trailer') -> merged l trailer l' trailer'.
Proof. intros hash l trailer l' trailer' Hd Hn Hs E. eapply rounds_spec; eassumption. Qed.

(** The repetition ends for every document that lists each number once. *)
Theorem C30_ends : forall hash l trailer, ids_distinct l -> remove_duplicates hash l trailer <> NoFuel.
Proof. intros hash l trailer Hd. apply rounds_nofuel; [exact Hd|lia]. Qed.

(** The hash functions of a common standard library: numbers hash to themselves. *)
Definition plain_hash : value -> N :=
  hash_value (fun b => if b then 1 else 0) Z.to_N Z.to_N (fun _ => 0) (fun c => c) (fun n => n) (fun g => g).
Definition entry (n : N) (v : value) : ditem := {| d_num := n; d_gen := 0; d_comp := false; d_value := v; d_cache := 0 |}.

(** Two equal numbers, two equal arrays that refer to different copies, and a page tree that uses all of them. *)
Definition good_doc : list ditem :=
  [entry 1 (VInt (QSigned 7)); entry 2 (VInt (QSigned 7)); entry 3 (VArr [VRef 1 0]); entry 4 (VArr [VRef 2 0]);
   entry 5 (VDict [(str "A", VRef 3 0); (str "B", VRef 4 0)])].
Definition good_trailer : value := VDict [(str "Root", VRef 5 0)].
Example C30_case :
  ids_distinct good_doc /\ no_reference_objects good_doc /\ (forall x, In x good_doc -> d_comp x = false -> steady plain_hash x) /\
  exists l' t', remove_duplicates plain_hash good_doc good_trailer = Ok (l', t') /\ map d_num l' = [1; 3; 4; 5] /\
    map d_value l' = [VInt (QSigned 7); VArr [VRef 1 0]; VArr [VRef 1 0]; VDict [(str "A", VRef 3 0); (str "B", VRef 4 0)]].
Proof.
  split; [|split; [|split]].
  - unfold ids_distinct. cbn. repeat constructor; cbn; intuition discriminate.
  - unfold no_reference_objects. repeat constructor; discriminate.
  - intros x Hin _. cbn in Hin. destruct Hin as [<-|[<-|[<-|[<-|[<-|[]]]]]]; right; cbn; try exact I; discriminate.
  - eexists. eexists. split; [vm_compute; reflexivity|]. split; vm_compute; reflexivity.
Qed.

(** Finding: two equal streams whose dictionaries refer to an object that is merged too.  The second stream's hash changes while it
    is a key of the list of duplicates, a reference to it that comes later is not redirected, and its entry is released: the
    reference is lost. *)
Definition stale_doc : list ditem :=
  [entry 1 (VInt (QSigned 7)); entry 2 (VInt (QSigned 7));
   entry 3 (VStream [(str "Mask", VRef 2 0)] (str "body")); entry 4 (VStream [(str "Mask", VRef 2 0)] (str "body"));
   entry 5 (VArr [VRef 3 0; VRef 4 0])].
Theorem C30_stale_hash_refuted :
  ids_distinct stale_doc /\ no_reference_objects stale_doc /\
  exists l' t', remove_duplicates plain_hash stale_doc good_trailer = Ok (l', t') /\
    find_indirect (objects l') 5 0 = VArr [VRef 3 0; VRef 4 0] /\ find_indirect (objects l') 4 0 = VNull /\
    ~ merged stale_doc good_trailer l' t'.
Proof.
  split; [|split].
  - unfold ids_distinct. cbn. repeat constructor; cbn; intuition discriminate.
  - unfold no_reference_objects. repeat constructor; discriminate.
  - eexists. eexists. split; [vm_compute; reflexivity|]. split; [vm_compute; reflexivity|]. split; [vm_compute; reflexivity|].
    intros (H & _). specialize (H 3%nat). cbn in H.
    inversion H as [| | | | |? ? Hd| |? ? F]; subst; [|destruct F]. inversion Hd as [|? ? ? ? (_ & Hr) _]; subst. cbn in Hr.
    inversion Hr as [| | | |? ? Ha| | |? ? F]; subst; [|destruct F]. inversion Ha as [|? ? ? ? _ Ha']; subst. inversion Ha' as [|? ? ? ? Hx _]; subst. cbn in Hx.
    inversion Hx as [| | | | | | |? ? F]; destruct F.
Qed.

Print Assumptions C30_one_round_partial.
Print Assumptions C30_all_rounds_partial.
Print Assumptions C30_ends.
Print Assumptions C30_stale_hash_refuted.

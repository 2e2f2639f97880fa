(** Entries of a page, of the document information and page ranges read back as they were set (C62). *)
From Coq Require Import List NArith ZArith Bool Lia String.
From Coq Require Import List.
From Verif.Model Require Import Base SMap Object Containers Entries.
From Verif.Spec Require Import Containers Entries.
From Verif.Proof Require Import Tac SMap Entries.
Import ListNotations.
Local Open Scope N_scope.

(** Keys are byte strings in strictly increasing order: what every dictionary looks like (C11). *)
Definition dictionary (m : smap obj) : Prop := ordered m /\ Forall (fun e => all_bytes (fst e)) m.

(** ** Pages.  Every history of getting and setting the entries of a page that was just looked up: the answers are those of a
    function from names to values.  The full statement has no condition on the history; it is false, see
    [C62_contents_remembered_refuted]. *)
Theorem C62_page_entries_partial :
  forall heap m os,
    dictionary m -> contents_set_before_read os ->
    let start := {| p_dict := m; p_contents := None |} in
    map seen (snd (page_run heap start os)) = snd (expected_run heap (fun k => sm_find k m) os).
Proof.
  intros heap m os [Ho Hk] Hs start. apply settled_run; [|reflexivity|exact Hs]. split; [split; assumption|reflexivity].
Qed.

(** Whatever the history, the dictionary (what is saved) has the values set last, and nothing else changed. *)
Theorem C62_page_dictionary :
  forall heap m os k,
    dictionary m -> all_bytes k ->
    let start := {| p_dict := m; p_contents := None |} in
    dictionary (p_dict (fst (page_run heap start os))) /\
    sm_find k (p_dict (fst (page_run heap start os))) = fst (expected_run heap (fun k => sm_find k m) os) k.
Proof.
  intros heap m os k [Ho Hk] Hb start.
  assert (H : dict_agrees (fst (page_run heap start os)) (fst (expected_run heap (fun k => sm_find k m) os))).
  { apply run_dict. split; [split; assumption|reflexivity]. }
  destruct H as [[H1 H2] H3]. split; [split; assumption|]. apply H3, Hb.
Qed.

Definition case_heap (n : N) : obj :=
  match n with
  | 5 => OStream [] [81] | 6 => OStream [] [81; 10]
  | 7 => OArr [OInt 0; OInt 0; OInt 595; OReal false 84189 2]
  | 8 => ODict [(str "Type", OName (str "Page")); (str "Resources", ODict [])]
  | 9 => ODict [(str "Resources", ODict [(str "Font", ODict [])]); (str "Type", OName (str "Pages"))]
  | _ => ONull
  end.
Definition case_page : smap obj := [(str "Contents", ORef 5 0); (str "MediaBox", ORef 7 0); (str "Type", OName (str "Page"))].

Example C62_case :
  dictionary case_page /\
  (let os := [PGet EMediaBox; PGet EResources; PSet EResources (ODict []); PSetContents 6; PGetContents; PGet EResources;
              PSet EMediaBox (OArr [OInt 1]); PGet EMediaBox; PGetContents] in
   contents_set_before_read os /\
   snd (page_run case_heap {| p_dict := case_page; p_contents := None |} os) =
     [Ok (Some (ORef 7 0)); Ok None; Ok None; Ok None; Ok (Some (ORef 6 0)); Ok (Some (ODict [])); Ok None; Throw EGeneral;
      Ok (Some (ORef 6 0))]).
Proof.
  split.
  - split; [repeat constructor|]. repeat constructor; cbn; repeat (constructor; [vm_compute; reflexivity|]); constructor.
  - cbv zeta. split; [cbn; repeat split; intros n H; repeat destruct H as [H|H]; try discriminate; contradiction|]. vm_compute. reflexivity.
Qed.

(** Contents that were read once are given for ever: after setting other contents the old ones are reported, for every page, every
    two streams and any calls in between that only read. *)
Theorem C62_contents_remembered_refuted :
  forall heap m a b da db ea eb,
    dictionary m -> heap a = OStream da ea -> heap b = OStream db eb ->
    let start := {| p_dict := m; p_contents := None |} in
    snd (page_run heap start [PSetContents a; PGetContents; PSetContents b; PGetContents]) =
      [Ok None; Ok (Some (ORef a 0)); Ok None; Ok (Some (ORef a 0))] /\
    sm_find (str "Contents") (p_dict (fst (page_run heap start [PSetContents a; PGetContents; PSetContents b; PGetContents]))) = Some (ORef b 0).
Proof.
  intros heap m a b da db ea eb Hm Ha Hb start. split.
  2:{ apply (C62_page_dictionary heap m [PSetContents a; PGetContents; PSetContents b; PGetContents] (str "Contents") Hm contents_bytes). }
  destruct Hm as [Ho Hk].
  destruct (put_entry_spec (str "Contents") (ORef a 0) m (conj Ho Hk) contents_bytes) as (m1 & E1 & T1 & F1).
  destruct (put_entry_spec (str "Contents") (ORef b 0) m1 T1 contents_bytes) as (m2 & E2 & T2 & F2).
  unfold start. cbn [page_run page_step page_set_contents p_dict]. unfold page_set_contents at 1. cbn [p_dict p_contents]. rewrite E1. cbn [rbind].
  unfold page_get_contents at 1. cbn [p_contents p_dict]. unfold dict_try_find. rewrite (F1 _ contents_bytes).
  replace (beq (str "Contents") (str "Contents")) with true by reflexivity.
  unfold is_null, is_stream at 1, target. rewrite Ha. cbn [orb]. unfold page_set_contents. cbn [p_dict p_contents]. rewrite E2. cbn [rbind].
  unfold page_get_contents. cbn [p_contents]. reflexivity.
Qed.

(** A page's own resources are found, whatever its parent holds; something else in their place is refused, and a page without resources
    and parent has none. *)
Theorem C62_own_resources :
  forall heap m fuel,
    match sm_find (str "Resources") m with
    | Some v => match meant heap v with
                | ODict _ => inheritable_resources heap (S fuel) m = Ok (Some v)
                | _ => inheritable_resources heap (S fuel) m = Throw EConversion
                end
    | None => sm_find (str "Parent") m = None -> inheritable_resources heap (S fuel) m = Ok None
    end.
Proof.
  intros heap m fuel. cbn [inheritable_resources]. unfold sm_contains, dict_find. destruct (sm_find (str "Resources") m) as [v|]; cbn [rbind].
  - unfold is_dict, target. change (match v with ORef n _ => heap n | _ => v end) with (meant heap v). destruct (meant heap v); reflexivity.
  - intros Hp. rewrite Hp. reflexivity.
Qed.

(** Resources that a page inherits are never found: for every page without its own whose parent is a page tree node, whatever the
    parent holds, the lookup fails. *)
Theorem C62_inherited_resources_refuted :
  forall heap m fuel v pm t,
    sm_find (str "Resources") m = None -> sm_find (str "Parent") m = Some v -> meant heap v = ODict pm ->
    sm_find (str "Type") pm = Some t -> meant heap t = OName (str "Pages") ->
    inheritable_resources heap (S fuel) m = Throw EGeneral.
Proof.
  intros heap m fuel v pm t Hr Hp Hd Ht Hn. cbn [inheritable_resources]. unfold sm_contains, dict_find. rewrite Hr, Hp. cbn [rbind].
  unfold target. change (match v with ORef n _ => heap n | _ => v end) with (meant heap v). rewrite Hd.
  unfold page_object, dict_find. rewrite Ht. cbn [rbind]. unfold target.
  change (match t with ORef n _ => heap n | _ => t end) with (meant heap t). rewrite Hn. reflexivity.
Qed.

Example C62_inherited_case :
  inheritable_resources case_heap 10 [(str "Parent", ORef 9 0); (str "Type", OName (str "Page"))] = Throw EGeneral /\
  case_heap 9 = ODict [(str "Resources", ODict [(str "Font", ODict [])]); (str "Type", OName (str "Pages"))].
Proof. vm_compute. auto. Qed.

(** ** Document information.  An entry that is not there can be set and is read back, and no other entry changes. *)
Theorem C62_information_partial :
  forall heap m k s (hex : bool),
    dictionary m -> all_bytes k -> sm_find k m = None ->
    exists m', info_set k (if hex then OHex s else OLit s) m = Ok m' /\ dictionary m' /\
      info_get heap k m' = Ok (Some s) /\
      forall j, all_bytes j -> j <> k -> sm_find j m' = sm_find j m.
Proof.
  intros heap m k s hex [Ho Hk] Hb Hn. unfold info_set, dict_insert, sm_contains. rewrite Hn. cbn [negb andb].
  eexists. split; [reflexivity|]. split; [split; [apply sm_insert_sorted, Ho|apply sm_insert_keys_ok; assumption]|].
  assert (F : sm_find k (sm_insert k (if hex then OHex s else OLit s) m) = Some (if hex then OHex s else OLit s)).
  { rewrite sm_find_insert by assumption. rewrite Hn. destruct (list_eq_dec N.eq_dec k k); [reflexivity|congruence]. }
  split.
  - unfold info_get, sm_contains, dict_find. rewrite F. cbn [rbind]. destruct hex; reflexivity.
  - intros j Hj Hne. rewrite sm_find_insert by assumption. destruct (sm_find j m); [reflexivity|].
    destruct (list_eq_dec N.eq_dec j k); [contradiction|reflexivity].
Qed.

(** An entry that is there cannot be set again: for every document information, entry and value. *)
Theorem C62_information_again_refuted :
  forall m k v w, sm_find k m = Some w -> info_set k v m = Throw EDuplicateKey.
Proof. intros m k v w H. unfold info_set, dict_insert, sm_contains. rewrite H. reflexivity. Qed.

(** The trapped state: what was set is read, and any spelling of the three words is understood and nothing else. *)
Theorem C62_trapped :
  forall heap m t, dictionary m -> sm_find (str "Trapped") m = None ->
    exists m', info_set_trapped t m = Ok m' /\ info_trapped heap m' = Ok (Some t).
Proof.
  intros heap m t [Ho Hk] Hn. assert (Hb : all_bytes (str "Trapped")) by (cbn; repeat (constructor; [vm_compute; reflexivity|]); constructor).
  unfold info_set_trapped, info_set, dict_insert, sm_contains. rewrite Hn. cbn [negb andb]. eexists. split; [reflexivity|].
  unfold info_trapped, sm_contains, dict_find. rewrite sm_find_insert by assumption. rewrite Hn.
  destruct (list_eq_dec N.eq_dec (str "Trapped") (str "Trapped")); [|congruence]. cbn [rbind]. destruct t; reflexivity.
Qed.

Theorem C62_trapped_spelling :
  forall heap m v t s,
    sm_find (str "Trapped") m = Some v -> (meant heap v = OName s \/ meant heap v = OLit s \/ meant heap v = OHex s) ->
    (info_trapped heap m = Ok (Some t) <-> same_text s (trapped_name t)) /\
    (info_trapped heap m = Ok None <-> forall t', ~ same_text s (trapped_name t')).
Proof.
  intros heap m v t s Hf Hv.
  assert (E : info_trapped heap m = Ok (if same_letters s (str "True") then Some TTrue
        else if same_letters s (str "False") then Some TFalse
        else if same_letters s (str "Unknown") then Some TUnknown else None)).
  { unfold info_trapped, sm_contains, dict_find. rewrite Hf. cbn [rbind]. unfold target.
    change (match v with ORef n _ => heap n | _ => v end) with (meant heap v). destruct Hv as [->|[-> | ->]]; reflexivity. }
  rewrite E. clear E Hf Hv.
  assert (D : forall a b c : bytes, same_text a b -> same_text a c -> map lower b = map lower c) by (unfold same_text; intros; congruence).
  destruct (same_letters s (str "True")) eqn:E1; [apply same_letters_text in E1|assert (N1 : ~ same_text s (str "True")) by (rewrite <- same_letters_text; congruence)].
  { split; split; intros H.
    - destruct t; try discriminate H. exact E1.
    - destruct t; [pose proof (D _ _ _ E1 H) as X; discriminate X|reflexivity|pose proof (D _ _ _ E1 H) as X; discriminate X].
    - discriminate H.
    - exfalso. apply (H TTrue). exact E1. }
  destruct (same_letters s (str "False")) eqn:E2; [apply same_letters_text in E2|assert (N2 : ~ same_text s (str "False")) by (rewrite <- same_letters_text; congruence)].
  { split; split; intros H.
    - destruct t; try discriminate H. exact E2.
    - destruct t; [pose proof (D _ _ _ E2 H) as X; discriminate X|pose proof (D _ _ _ E2 H) as X; discriminate X|reflexivity].
    - discriminate H.
    - exfalso. apply (H TFalse). exact E2. }
  destruct (same_letters s (str "Unknown")) eqn:E3; [apply same_letters_text in E3|assert (N3 : ~ same_text s (str "Unknown")) by (rewrite <- same_letters_text; congruence)].
  { split; split; intros H.
    - destruct t; try discriminate H. exact E3.
    - destruct t; [reflexivity|pose proof (D _ _ _ E3 H) as X; discriminate X|pose proof (D _ _ _ E3 H) as X; discriminate X].
    - discriminate H.
    - exfalso. apply (H TUnknown). exact E3. }
  split; split; intros H.
  - discriminate H.
  - destruct t; cbn in H; contradiction.
  - intros []; cbn; assumption.
  - reflexivity.
Qed.

Example C62_trapped_case :
  info_trapped case_heap [(str "Trapped", OLit (str "tRUE"))] = Ok (Some TTrue) /\
  info_trapped case_heap [(str "Trapped", OName (str "Maybe"))] = Ok None.
Proof. vm_compute. auto. Qed.

(** ** Page ranges.  The first sub-range is right, the number of sub-ranges too. *)
Theorem C62_sub_range_first_partial :
  forall l, page_range l = Ok l -> sub_ranges l = N.of_nat (List.length (pairs l)) /\
    (l <> [] -> sub_range l 0 = match pairs l with p :: _ => Ok p | [] => Throw EStdRange end).
Proof.
  intros l Hl. unfold page_range in Hl. destruct (Nat.odd (List.length l)) eqn:Eo; [discriminate|].
  split.
  - unfold sub_ranges. assert (H : forall n (l : list Z), (List.length l <= n)%nat -> Nat.odd (List.length l) = false ->
      List.length l = (2 * List.length (pairs l))%nat).
    { clear. induction n as [|n IH]; intros [|a [|b l]] Hn Ho; cbn [List.length pairs] in *; try lia; [discriminate Ho|].
      rewrite (IH l) at 1; [lia|lia|]. exact Ho. }
    rewrite (H _ l (le_n _) Eo) at 1. rewrite Nat2N.inj_mul. change (N.of_nat 2) with 2. rewrite N.mul_comm. rewrite N.div_mul by discriminate. reflexivity.
  - intros Hne. destruct l as [|a [|b l]]; [contradiction|discriminate Eo|].
    unfold sub_range, arr_get, arr_size. cbn [List.length pairs]. rewrite !Nat2N.inj_succ.
    replace (0 <? _) with true by (symmetry; apply N.ltb_lt; lia). cbn [N.to_nat nth_error rbind].
    replace (0 + 1 <? _) with true by (symmetry; apply N.ltb_lt; lia). reflexivity.
Qed.

(** Every other sub-range is wrong when the page numbers increase. *)
Theorem C62_sub_range_refuted :
  forall l i p, page_range l = Ok l -> (forall i j, (i < j < List.length l)%nat -> (nth i l 0 < nth j l 0)%Z) ->
    (1 <= i)%nat -> nth_error (pairs l) i = Some p -> exists q, sub_range l (N.of_nat i) = Ok q /\ q <> p.
Proof.
  intros l i p Hl Hinc Hi Hp.
  assert (Hat : forall n (l : list Z) i p, (List.length l <= n)%nat -> nth_error (pairs l) i = Some p ->
    (2 * i + 1 < List.length l)%nat /\ p = (nth (2 * i) l 0%Z, nth (2 * i + 1) l 0%Z)).
  { clear. induction n as [|n IH]; intros [|a [|b l]] i p Hn Hp; cbn [List.length pairs] in *; try lia; try (destruct i; discriminate Hp).
    destruct i as [|i]; cbn [nth_error] in Hp.
    - injection Hp as <-. split; [lia|reflexivity].
    - destruct (IH l i p ltac:(lia) Hp) as [H1 H2]. split; [lia|]. replace (2 * S i)%nat with (S (S (2 * i))) by lia. exact H2. }
  destruct (Hat _ l i p (le_n _) Hp) as [Hlen ->].
  exists (nth i l 0%Z, nth (i + 1) l 0%Z). split.
  - unfold sub_range, arr_get, arr_size.
    replace (N.of_nat i <? _) with true by (symmetry; apply N.ltb_lt; lia). rewrite Nat2N.id.
    rewrite (nth_error_nth' l 0%Z) by lia. cbn [rbind].
    replace (N.of_nat i + 1 <? _) with true by (symmetry; apply N.ltb_lt; lia).
    replace (N.to_nat (N.of_nat i + 1)) with (i + 1)%nat by lia. rewrite (nth_error_nth' l 0%Z) by lia. reflexivity.
  - intros E. injection E as E1 _. assert (X : (i < 2 * i < List.length l)%nat) by lia. pose proof (Hinc i (2 * i)%nat X) as Y. rewrite E1 in Y. exact (Z.lt_irrefl _ Y).
Qed.

Example C62_sub_range_case :
  let l := [1; 3; 7; 9]%Z in
  page_range l = Ok l /\ pairs l = [(1, 3); (7, 9)]%Z /\ sub_range l 0 = Ok (1, 3)%Z /\ sub_range l 1 = Ok (3, 7)%Z.
Proof. vm_compute. auto. Qed.

Print Assumptions C62_page_entries_partial.
Print Assumptions C62_page_dictionary.
Print Assumptions C62_contents_remembered_refuted.
Print Assumptions C62_own_resources.
Print Assumptions C62_inherited_resources_refuted.
Print Assumptions C62_information_partial.
Print Assumptions C62_information_again_refuted.
Print Assumptions C62_trapped.
Print Assumptions C62_trapped_spelling.
Print Assumptions C62_sub_range_first_partial.
Print Assumptions C62_sub_range_refuted.

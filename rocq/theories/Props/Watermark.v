(** C100: saving without a license adds a mark to every page and leaves what is on the pages as it was. *)
From Coq Require Import List NArith ZArith Bool Lia String Sorted.
From Verif.Model Require Import Base Numbers SMap Object Equality Watermark.
From Verif.Spec Require Import Watermark.
From Verif.Proof Require Import Tac Strings StreamObj SMap Watermark.
Import ListNotations.
Local Open Scope N_scope.

(** Nothing of the document is changed or taken away: for every document and every object, its entries are the same afterwards, but
    for new dictionaries Resources and Font and for the font of the mark. *)
Theorem C100_nothing_lost : forall real font text image fuel d trailer d',
  (forall n g, tidy (d_objects d n g)) -> apply_watermark real font text image fuel d trailer = Ok d' ->
  forall n g, grown (ORef (fst font) (snd font)) 3 (d_objects d n g) (d_objects d' n g).
Proof. intros real font text image fuel d trailer d' T H. exact (proj1 (apply_steady real font text image fuel d trailer d' T H)). Qed.

(** The body of every stream is what it was, with one line that saves the state in front for each page it is the first stream of, and one
    line that restores it and the mark behind for each page it is the last stream of. *)
Theorem C100_bodies : forall real font text image fuel d trailer kids d',
  (forall n g, tidy (d_objects d n g)) -> root_kids (d_objects d) trailer kids -> apply_watermark real font text image fuel d trailer = Ok d' ->
  exists nodes, page_nodes (d_objects d) kids nodes /\
    forall s, exists marks, Forall2 (drawn real text image (d_objects d)) (filter (ends (d_objects d) s) nodes) marks /\
      d_bodies d' (fst s) (snd s) =
        saves (List.length (filter (begins (d_objects d) s) nodes)) ++ d_bodies d (fst s) (snd s) ++ List.concat (map (fun t => restore_line ++ t) marks).
Proof.
  intros real font text image fuel d trailer kids d' T R H. rewrite (root_kids_mark _ _ _ _ _ _ _ _ R) in H.
  exact (proj2 (mark_nodes_spec real font text image fuel d kids d' T H)).
Qed.

(** A page whose content streams are its own shows its content between a line that saves the state and one that restores it, then the mark. *)
Theorem C100_page_partial : forall real font text image fuel d trailer kids d' nodes p,
  (forall n g, tidy (d_objects d n g)) -> root_kids (d_objects d) trailer kids -> apply_watermark real font text image fuel d trailer = Ok d' ->
  page_nodes (d_objects d) kids nodes -> NoDup nodes -> In p nodes ->
  let streams := content_streams (d_objects d) p in
  streams <> [] -> NoDup streams ->
  (forall q s, In q nodes -> In s streams -> In s (content_streams (d_objects d) q) -> q = p) ->
  exists t, drawn real text image (d_objects d) p t /\ content_streams (d_objects d') p = streams /\
    joined (d_bodies d') streams = save_line ++ joined (d_bodies d) streams ++ restore_line ++ t.
Proof.
  intros real font text image fuel d trailer kids d' nodes p T R H P N Hp streams Hne Hnd Hown.
  assert (St := apply_steady _ _ _ _ _ _ _ _ T H).
  destruct (C100_bodies _ _ _ _ _ _ _ _ _ T R H) as (nodes0 & P0 & B). assert (nodes0 = nodes) by (eapply nodes_unique; eassumption). subst nodes0.
  subst streams. destruct (content_streams (d_objects d) p) as [|x r] eqn:Es; [congruence|].
  assert (Hb : forall s, In s (x :: r) -> filter (begins (d_objects d) s) nodes = if same_ref x s then [p] else []).
  { intros s Hs. destruct (same_ref x s) eqn:E.
    - apply filter_only; [exact N|exact Hp|]. intros q Hq. split; [|intros ->; unfold begins; rewrite Es; exact E].
      unfold begins. destruct (content_streams (d_objects d) q) as [|x2 r2] eqn:Eq; [discriminate|]. intros X. apply same_ref_eq in X. subst x2.
      apply (Hown q s Hq Hs). rewrite Eq. left; reflexivity.
    - apply filter_none. intros q Hq. apply not_true_is_false. intros X. assert (X0 := X). unfold begins in X. destruct (content_streams (d_objects d) q) as [|x2 r2] eqn:Eq; [discriminate|].
      apply same_ref_eq in X. subst x2. assert (q = p) by (apply (Hown q s Hq Hs); rewrite Eq; left; reflexivity). subst q. unfold begins in X0. rewrite Es in X0. congruence. }
  assert (He : forall s, In s (x :: r) -> filter (ends (d_objects d) s) nodes = if same_ref (last r x) s then [p] else []).
  { intros s Hs. destruct (same_ref (last r x) s) eqn:E.
    - apply filter_only; [exact N|exact Hp|]. intros q Hq. split; [|intros ->; unfold ends; rewrite Es; exact E].
      unfold ends. destruct (content_streams (d_objects d) q) as [|x2 r2] eqn:Eq; [discriminate|]. intros X. apply same_ref_eq in X.
      apply (Hown q s Hq Hs). rewrite Eq, <- X. apply last_in.
    - apply filter_none. intros q Hq. apply not_true_is_false. intros X. assert (X0 := X). unfold ends in X. destruct (content_streams (d_objects d) q) as [|x2 r2] eqn:Eq; [discriminate|].
      apply same_ref_eq in X. assert (q = p) by (apply (Hown q s Hq Hs); rewrite Eq, <- X; apply last_in). subst q. unfold ends in X0. rewrite Es in X0. congruence. }
  destruct (B (last r x)) as (ms & Fm & Em). rewrite (He _ (last_in _ r x)) in Fm. assert (El : same_ref (last r x) (last r x) = true) by (apply same_ref_eq; reflexivity). rewrite El in Fm.
  inversion Fm as [|? t ? ts Dt Fn]; subst. inversion Fn; subst. exists t. split; [exact Dt|]. split; [rewrite (steady_streams _ _ _ p St); exact Es|].
  rewrite (joined_marked (d_bodies d) (d_bodies d') (restore_line ++ t) save_line r x Hnd); [reflexivity|].
  intros s Hs. destruct (same_ref (last r x) s) eqn:E.
  - apply same_ref_eq in E. subst s. rewrite Em, (Hb _ Hs). destruct (same_ref x (last r x)); unfold saves; cbn [List.length repeat List.concat map]; rewrite ?app_nil_r; reflexivity.
  - destruct (B s) as (ms & Gm & Gs). rewrite (He s Hs), E in Gm. inversion Gm; subst. rewrite Gs, (Hb s Hs).
    destruct (same_ref x s); unfold saves; cbn [List.length repeat List.concat map]; rewrite ?app_nil_r; reflexivity.
Qed.

(** Pages that share their first stream but not their last one: the state is saved once for every one of these pages, and restored once. *)
Theorem C100_shared_refuted : forall real font text image fuel d trailer kids d' nodes p x r,
  (forall n g, tidy (d_objects d n g)) -> root_kids (d_objects d) trailer kids -> apply_watermark real font text image fuel d trailer = Ok d' ->
  page_nodes (d_objects d) kids nodes -> NoDup nodes -> In p nodes -> content_streams (d_objects d) p = x :: r ->
  (forall q, In q nodes -> ends (d_objects d) x q = false) -> (forall q, In q nodes -> begins (d_objects d) (last r x) q = false) ->
  (forall q, In q nodes -> ends (d_objects d) (last r x) q = true -> q = p) ->
  exists t, d_bodies d' (fst x) (snd x) = saves (List.length (filter (begins (d_objects d) x) nodes)) ++ d_bodies d (fst x) (snd x) /\
    d_bodies d' (fst (last r x)) (snd (last r x)) = d_bodies d (fst (last r x)) (snd (last r x)) ++ restore_line ++ t.
Proof.
  intros real font text image fuel d trailer kids d' nodes p x r T R H P N Hp Es H1 H2 H3.
  destruct (C100_bodies _ _ _ _ _ _ _ _ _ T R H) as (nodes0 & P0 & B). assert (nodes0 = nodes) by (eapply nodes_unique; eassumption). subst nodes0.
  assert (E : ends (d_objects d) (last r x) p = true) by (unfold ends; rewrite Es; apply same_ref_eq; reflexivity).
  destruct (B (last r x)) as (ms & Fm & Em). rewrite (filter_only _ _ nodes p N Hp) in Fm by (intros q Hq; split; [apply H3; exact Hq|intros ->; exact E]).
  inversion Fm as [|? t ? ts Dt Fn]; subst. inversion Fn; subst. exists t. split.
  - destruct (B x) as (ms & Gm & Gs). rewrite filter_none in Gm by exact H1. inversion Gm; subst. rewrite Gs. cbn [map List.concat]. rewrite app_nil_r. reflexivity.
  - rewrite Em, filter_none by exact H2. unfold saves. cbn [List.length repeat List.concat map]. rewrite app_nil_r. reflexivity.
Qed.

(** A page with contents that has no Resources of its own: afterwards it has, and they hold the font of the mark and no resource of the document.
    What it inherited from its parents - fonts, images, colour spaces - is not used any more. *)
Theorem C100_inherited_refuted : forall real font text image fuel d trailer kids d' nodes p m v,
  (forall n g, tidy (d_objects d n g)) -> root_kids (d_objects d) trailer kids -> apply_watermark real font text image fuel d trailer = Ok d' ->
  page_nodes (d_objects d) kids nodes -> In p nodes ->
  d_objects d (fst p) (snd p) = ODict m -> sm_find (str "Contents") m = Some v -> sm_find (str "Resources") m = None ->
  exists m' rs fs, d_objects d' (fst p) (snd p) = ODict m' /\
    sm_find (str "Resources") m' = Some (ODict rs) /\ sm_find (str "Font") rs = Some (ODict fs) /\ sm_find mark_font fs = Some (ORef (fst font) (snd font)) /\
    (forall key, all_bytes key -> sm_find key rs <> None \/ sm_find key fs <> None -> In key (mark_font :: new_dictionaries)).
Proof.
  intros real font text image fuel d trailer kids d' nodes [n g] m v T R H P Hp E F Fr. cbn [fst snd] in *.
  assert (St := apply_steady _ _ _ _ _ _ _ _ T H). rewrite (root_kids_mark _ _ _ _ _ _ _ _ R) in H.
  assert (Q : equipped (d_objects d') (n, g)) by (eapply mark_nodes_equips; [exact T|exact H|exact P|exact Hp|exists m, v; split; [exact E|exact F]]).
  destruct Q as (m' & w & E' & F' & Hw). cbn [fst snd] in E'. assert (G := proj1 St n g). rewrite E, E' in G.
  assert (X := grown_find _ _ _ _ (str "Resources") (str_bytes _) G). rewrite Fr, F' in X.
  destruct X as [[X _]|[_ X]]; [vm_compute in X; discriminate X|]. destruct (grown_dict _ _ _ _ X) as (rs & ->).
  destruct (Hw rs eq_refl) as (w & Ff & Hf). assert (Y := grown_find _ _ _ _ (str "Font") (str_bytes _) X). cbn [sm_find] in Y. rewrite Ff in Y.
  destruct Y as [[Y _]|[_ Y]]; [vm_compute in Y; discriminate Y|]. destruct (grown_dict _ _ _ _ Y) as (fs & ->). specialize (Hf fs eq_refl).
  exists m', rs, fs. split; [exact E'|]. split; [exact F'|]. split; [exact Ff|]. split.
  - assert (Z := grown_find _ _ _ _ mark_font mark_font_bytes Y). cbn [sm_find] in Z. destruct (sm_find mark_font fs) as [z|]; [|congruence].
    destruct Z as [[_ ->]|[Z _]]; [reflexivity|]. exfalso. vm_compute in Z. intuition discriminate.
  - intros key Hk [K|K].
    + assert (Z := grown_find _ _ _ _ key Hk X). cbn [sm_find] in Z. destruct (sm_find key rs); [|congruence]. destruct Z as [[-> _]|[Z _]]; [left; reflexivity|right; exact Z].
    + assert (Z := grown_find _ _ _ _ key Hk Y). cbn [sm_find] in Z. destruct (sm_find key fs); [|congruence]. destruct Z as [[-> _]|[Z _]]; [left; reflexivity|right; exact Z].
Qed.

(** Every document whose page tree is finite and whose nodes can be marked is marked. *)
Theorem C100_succeeds : forall real font text image d trailer kids nodes,
  (forall n g, tidy (d_objects d n g)) -> root_kids (d_objects d) trailer kids -> page_nodes (d_objects d) kids nodes ->
  (forall p, In p nodes -> ready real (d_objects d) p) ->
  exists enough, forall fuel, (enough <= fuel)%nat -> exists d', apply_watermark real font text image fuel d trailer = Ok d'.
Proof.
  intros real font text image d trailer kids nodes T R P Hr. destruct (mark_nodes_succeeds real font text image _ _ _ P Hr) as (enough & A).
  exists enough. intros fuel L. rewrite (root_kids_mark _ _ _ _ _ _ _ _ R). apply A; [apply steady_refl; exact T|exact L].
Qed.

(** When a node of the page tree is below itself, saving does not end in a file, however long it goes on. *)
Theorem C100_cycle_refuted : forall real font text image fuel d trailer kids p m l d',
  (forall n g, tidy (d_objects d n g)) -> root_kids (d_objects d) trailer kids ->
  descends (d_objects d) kids p -> d_objects d (fst p) (snd p) = ODict m -> kids_of (d_objects d) m l -> descends (d_objects d) l p ->
  apply_watermark real font text image fuel d trailer <> Ok d'.
Proof.
  intros real font text image fuel d trailer kids p m l d' T R D E K C H. destruct (C100_bodies _ _ _ _ _ _ _ _ _ T R H) as (nodes & P & _).
  destruct (nodes_descend _ _ _ D _ _ _ P E K) as (n1 & P1 & _). destruct (nodes_descend _ _ _ C _ _ _ P1 E K) as (n2 & P2 & L).
  rewrite (nodes_unique _ _ _ P1 _ P2) in L. lia.
Qed.

(** Three pages.  The first has one stream, the box of a page and no resources of its own; the others share their first stream. *)
Definition case_page (contents : obj) : list (bytes * obj) := [(str "Contents", contents); (str "Resources", ORef 9 0)].
Definition case_document : doc :=
  {| d_objects := fun n g => match n with
       | 1 => ODict [(str "Pages", ORef 2 0)]
       | 2 => ODict [(str "Kids", OArr [ORef 3 0; ORef 4 0; ORef 5 0]); (str "Resources", ODict [(str "XObject", ODict [(str "Im1", ORef 10 0)])])]
       | 3 => ODict [(str "Contents", ORef 6 0); (str "MediaBox", OArr [OInt 0; OInt 0; OInt 612; OInt 792])]
       | 4 => ODict (case_page (OArr [ORef 7 0; ORef 8 0]))
       | 5 => ODict (case_page (OArr [ORef 7 0; ORef 11 0]))
       | 6 | 7 | 8 | 11 => OStream [] []
       | 9 => ODict []
       | _ => ONull
       end;
     d_bodies := fun n g => match n with 6 => str "/Im1 Do" | 7 => str "a" | 8 => str "b" | 11 => str "c" | _ => [] end |}.
Definition case_trailer : list (bytes * obj) := [(str "Root", ORef 1 0)].

Ltac tidy_case := first [apply tidy_other; discriminate | let m := fresh in let E := fresh in let k := fresh in let v := fresh in let I := fresh in
  constructor; intros m E; injection E as <-; split; [repeat constructor|]; split; [repeat constructor; try (apply str_bytes)|];
  intros k v I; repeat (destruct I as [I|I]; [injection I as <- <-; tidy_case|]); destruct I].

Example C100_case : forall real,
  (forall n g, tidy (d_objects case_document n g)) /\
  root_kids (d_objects case_document) case_trailer [ORef 3 0; ORef 4 0; ORef 5 0] /\
  page_nodes (d_objects case_document) [ORef 3 0; ORef 4 0; ORef 5 0] [(3, 0); (4, 0); (5, 0)] /\
  content_streams (d_objects case_document) (4, 0) = [(7, 0); (8, 0)] /\
  exists d', apply_watermark real (12, 0) (str "T") (str "I") 10 case_document case_trailer = Ok d' /\
    d_bodies d' 6 0 = str "q" ++ [10] ++ str "/Im1 Do" ++ [10] ++ str "Q" ++ [10] ++ str "T50 0 0 35 552 747 cm" ++ [10] ++ str "I" /\
    d_bodies d' 7 0 = str "q" ++ [10] ++ str "q" ++ [10] ++ str "a" /\
    d_bodies d' 8 0 = str "b" ++ [10] ++ str "Q" ++ [10] ++ str "T" /\
    d_objects d' 9 0 = ODict [(str "Font", ODict [(mark_font, ORef 12 0)])].
Proof.
  intros real. split; [|split; [|split; [|split]]].
  - intros n g. unfold case_document; cbn [d_objects]. destruct n as [|p]; [tidy_case|]. do 4 (destruct p as [p|p|]; try tidy_case).
  - exists (ORef 1 0), [(str "Pages", ORef 2 0)], (ORef 2 0). eexists. exists (OArr [ORef 3 0; ORef 4 0; ORef 5 0]).
    split; [vm_compute; reflexivity|]. split; [right; exists 1, 0; split; reflexivity|]. split; [vm_compute; reflexivity|]. split; [right; exists 2, 0; split; reflexivity|].
    split; [vm_compute; reflexivity|left; reflexivity].
  - eapply (pn_cons _ 3 0 _ [] []); [reflexivity|vm_compute; reflexivity|constructor|].
    eapply (pn_cons _ 4 0 _ [] []); [reflexivity|vm_compute; reflexivity|constructor|].
    eapply (pn_cons _ 5 0 _ [] []); [reflexivity|vm_compute; reflexivity|constructor|constructor].
  - vm_compute. reflexivity.
  - destruct (apply_watermark real (12, 0) (str "T") (str "I") 10 case_document case_trailer) as [d'| | |] eqn:E; [|vm_compute in E; discriminate E..].
    exists d'. split; [reflexivity|]. vm_compute in E. apply okay in E. subst d'. vm_compute. repeat split; reflexivity.
Qed.

(** A node that is its own kid. *)
Example C100_cycle_case : forall real fuel d',
  apply_watermark real (12, 0) (str "T") (str "I") fuel
    {| d_objects := fun n g => match n with 1 => ODict [(str "Pages", ORef 2 0)] | 2 => ODict [(str "Kids", OArr [ORef 2 0])] | _ => ONull end; d_bodies := fun _ _ => [] |}
    case_trailer <> Ok d'.
Proof.
  intros real fuel d'. apply (C100_cycle_refuted real (12, 0) (str "T") (str "I") fuel _ case_trailer [ORef 2 0] (2, 0) [(str "Kids", OArr [ORef 2 0])] [ORef 2 0]).
  - intros n g. cbn [d_objects]. destruct n as [|p]; [tidy_case|]. do 2 (destruct p as [p|p|]; try tidy_case).
  - exists (ORef 1 0), [(str "Pages", ORef 2 0)], (ORef 2 0), [(str "Kids", OArr [ORef 2 0])], (OArr [ORef 2 0]).
    split; [vm_compute; reflexivity|]. split; [right; exists 1, 0; split; reflexivity|]. split; [vm_compute; reflexivity|]. split; [right; exists 2, 0; split; reflexivity|].
    split; [vm_compute; reflexivity|left; reflexivity].
  - apply de_here. left; reflexivity.
  - reflexivity.
  - left. reflexivity.
  - apply de_here. left; reflexivity.
Qed.


(** All nodes of the document with three pages can be marked. *)
Example C100_ready_case : forall real p, In p [(3, 0); (4, 0); (5, 0)] -> ready real (d_objects case_document) p.
Proof.
  intros real p [<-|[<-|[<-|[]]]]; (eexists; split; [reflexivity|]; split; [vm_compute; discriminate|]).
  - split; [|intros v H; vm_compute in H; discriminate H]. intros v H. vm_compute in H. injection H as <-. eexists. split; [left; reflexivity|].
    intros a b c e H. injection H as <- <- <- <-. split; [left; exists 0%Z; left; reflexivity|]. split; [left; exists 0%Z; left; reflexivity|].
    split; left; eexists; (split; [left; reflexivity|]); vm_compute; discriminate.
  - split; [intros v H; vm_compute in H; discriminate H|]. intros v H. vm_compute in H. injection H as <-. exists []. split; [right; exists 9, 0; split; reflexivity|discriminate].
  - split; [intros v H; vm_compute in H; discriminate H|]. intros v H. vm_compute in H. injection H as <-. exists []. split; [right; exists 9, 0; split; reflexivity|discriminate].
Qed.

Print Assumptions C100_nothing_lost.
Print Assumptions C100_bodies.
Print Assumptions C100_page_partial.
Print Assumptions C100_shared_refuted.
Print Assumptions C100_inherited_refuted.
Print Assumptions C100_succeeds.
Print Assumptions C100_cycle_refuted.

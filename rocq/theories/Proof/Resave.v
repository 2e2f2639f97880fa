From Coq Require Import List NArith ZArith Bool Lia String Sorted Permutation.
From Verif.Model Require Import Base SMap Object Equality Token Parser Xref StartXref Header FileWrite Chain Merge Duplicates Update Save Resave.
From Verif.Spec Require Import Grammar Xref FileWrite Chain Merge Update Unreferenced Duplicates Save Resave.
From Verif.Proof Require Import Tac Chain.
From Verif.Proof Require Update Save.
Import ListNotations.
Local Open Scope N_scope.

Notation items c := (flat_map f_items c).
Notation key x := (shown (f_entry x)).

Lemma same_data_eq : forall a b, same_data a b = true <-> a = b.
Proof.
  intros [n|o u|s i] [m|p w|t j]; cbn [same_data]; split; intros H; try discriminate H.
  - f_equal. lia.
  - injection H as ->. lia.
  - apply andb_true_iff in H. destruct H as (H1 & H2). apply eqb_prop in H2. f_equal; [lia|exact H2].
  - injection H as -> ->. rewrite eqb_reflx, Z.eqb_refl. reflexivity.
  - apply andb_true_iff in H. f_equal; lia.
  - injection H as -> ->. rewrite !N.eqb_refl. reflexivity.
Qed.
Lemma same_entry_eq : forall a b, same_entry a b = true <-> a = b.
Proof.
  intros [n g k] [n' g' k']. unfold same_entry. cbn [xnum xgen xdata]. rewrite !andb_true_iff, !N.eqb_eq, same_data_eq. split.
  - intros ((-> & ->) & ->). reflexivity.
  - intros H. injection H. tauto.
Qed.
Lemma shown_num : forall e, xnum (shown e) = xnum e.
Proof. intros [n g [|o u|]]; reflexivity. Qed.
Lemma shown_gen : forall e, xgen (shown e) = xgen e.
Proof. intros [n g [|o u|]]; reflexivity. Qed.

(** ** changing items without moving them *)
Lemma on_items_items : forall f c, items (on_items f c) = map f (items c).
Proof. intros f. unfold on_items. induction c as [|s c IH]; [reflexivity|]. cbn [map flat_map f_items]. rewrite map_app, IH. reflexivity. Qed.
Lemma on_items_chain : forall f c, (forall x, In x (items c) -> key (f x) = key x) -> memory_chain (on_items f c) = memory_chain c.
Proof.
  intros f. unfold memory_chain, on_items. induction c as [|s c IH]; intros H; [reflexivity|]. cbn [map flat_map] in *. f_equal.
  - unfold shown_section. cbn [f_items f_trailer]. f_equal. rewrite map_map. apply map_ext_in. intros x Hx. apply H. apply in_or_app. left. exact Hx.
  - apply IH. intros x Hx. apply H. apply in_or_app. right. exact Hx.
Qed.

Definition release (x : fentry) : fentry :=
  if f_dirty x then
    match xdata (f_entry x) with
    | KUsed offset true => {| f_entry := {| xnum := xnum (f_entry x); xgen := xgen (f_entry x); xdata := KUsed offset false |}; f_object := ONull; f_dirty := true |}
    | _ => x
    end
  else x.
Definition no_comp (x : fentry) : Prop := match xdata (f_entry x) with KComp _ _ => False | _ => True end.
Lemma release_items_map : forall l, Forall no_comp l -> release_items l = (map release l, false).
Proof.
  induction l as [|x l IH]; intros H; [reflexivity|]. inversion H as [|? ? Hx Hl]; subst. cbn [release_items map]. rewrite (IH Hl). unfold release, no_comp in *.
  destruct (f_dirty x); [|reflexivity]. destruct (xdata (f_entry x)) as [|o []|]; try reflexivity. destruct Hx.
Qed.
Lemma release_sections_map : forall c, (forall x, In x (items c) -> no_comp x) -> release_sections c = on_items release c.
Proof.
  induction c as [|s c IH]; intros H; [reflexivity|]. cbn [release_sections on_items map flat_map] in *. rewrite release_items_map.
  - f_equal. apply IH. intros x Hx. apply H. apply in_or_app. right. exact Hx.
  - apply Forall_forall. intros x Hx. apply H. apply in_or_app. left. exact Hx.
Qed.
Lemma release_key : forall x, key (release x) = key x.
Proof. intros [[n g k] o d]. unfold release. cbn [f_dirty f_entry xdata xnum xgen]. destruct d; [|reflexivity]. destruct k as [|p []|]; reflexivity. Qed.

(** ** content *)
Definition keys_once (c : list fsection) : Prop := NoDup (map (fun x => key x) (items c)).
Lemma nodup_key : forall (l : list fentry) x y, NoDup (map (fun x => key x) l) -> In x l -> In y l -> key x = key y -> x = y.
Proof.
  induction l as [|a l IH]; intros x y H Hx Hy E; [destruct Hx|]. cbn [map] in H. inversion H as [|? ? Hn Hl]; subst. destruct Hx as [<-|Hx], Hy as [<-|Hy].
  - reflexivity.
  - exfalso. apply Hn. rewrite E. apply (in_map (fun x => key x)). exact Hy.
  - exfalso. apply Hn. rewrite <- E. apply (in_map (fun x => key x)). exact Hx.
  - apply IH; assumption.
Qed.
Lemma content_item : forall c x, keys_once c -> In x (items c) -> content_of c (key x) = held x.
Proof.
  intros c x H Hx. unfold content_of. destruct (find _ _) as [y|] eqn:E.
  - apply find_some in E. destruct E as (Hy & E). apply same_entry_eq in E. rewrite (nodup_key _ y x H Hy Hx E). reflexivity.
  - assert (F := find_none _ _ E x Hx). cbv beta in F. rewrite (proj2 (same_entry_eq _ _) eq_refl) in F. discriminate.
Qed.

Lemma resolved_item : forall c n g e, resolve_entry n g (memory_chain c) = Some e -> exists x, In x (items c) /\ key x = e /\ xnum e = n /\ xgen e = g.
Proof.
  intros c n g e H. unfold resolve_entry in H. destruct (chain_entry n g (memory_chain c)) as [e'|] eqn:Ec; [|discriminate].
  assert (e' = e) by (destruct (xdata e'); congruence). subst e'. clear H. induction c as [|s c IH]; [discriminate|].
  cbn [memory_chain map chain_entry flat_map] in *.
  assert (Hrest : chain_entry n g (map shown_section c) = Some e -> exists x, In x (f_items s ++ items c) /\ key x = e /\ xnum e = n /\ xgen e = g).
  { intros E. destruct (IH E) as (x & Hx & R). exists x. split; [apply in_or_app; right; exact Hx|exact R]. }
  destruct (sec_find n (shown_section s)) as [y|] eqn:Ey; [|auto]. destruct (xgen y =? g) eqn:Eg; [|auto]. injection Ec as ->.
  unfold sec_find, shown_section in Ey. cbn [s_entries s_kind s_hybrid] in Ey. destruct (xfind n _) as [z|] eqn:Ez; [|discriminate]. injection Ey as ->.
  apply xfind_some in Ez. destruct Ez as (Hz & En). apply in_map_iff in Hz. destruct Hz as (x & Ex & Hx). exists x.
  split; [apply in_or_app; left; exact Hx|]. split; [exact Ex|]. split; [exact En|lia].
Qed.
Lemma resolved_not_free : forall c n g e next, resolve_entry n g c = Some e -> xdata e <> KFree next.
Proof. intros c n g e next H E. unfold resolve_entry in H. destruct (chain_entry n g c) as [e'|]; [|discriminate]. destruct (xdata e') eqn:D; congruence. Qed.

(** ** the invariant *)
Record inv (d : document) (h : history) : Prop := {
  i_keys : keys_once (d_sections d);
  i_plain : forall x, In x (items (d_sections d)) -> no_comp x;
  i_dirty : forall x, In x (items (d_sections d)) -> f_dirty x = true ->
    resolve_entry (xnum (f_entry x)) (xgen (f_entry x)) (memory_chain (d_sections d)) = Some (key x) /\
    touched h (xnum (f_entry x)) (xgen (f_entry x));
  i_released : forall x off, In x (items (d_sections d)) -> xdata (f_entry x) = KUsed off false ->
    f_dirty x = true /\ lost h (xnum (f_entry x)) (xgen (f_entry x));
  i_touched : forall n g x, resolve_entry n g (memory_chain (d_sections d)) = Some (key x) -> In x (items (d_sections d)) -> touched h n g -> f_dirty x = true;
  i_wanted : forall n g x, resolve_entry n g (memory_chain (d_sections d)) = Some (key x) -> In x (items (d_sections d)) -> ~ lost h n g -> held x = wanted h n g;
  i_live : forall n g x, resolve_entry n g (memory_chain (d_sections d)) = Some (key x) -> In x (items (d_sections d)) -> lost h n g ->
    exists off, xdata (f_entry x) = KUsed off false;
  i_none : forall n g, resolve_entry n g (memory_chain (d_sections d)) = None -> wanted h n g = ONull /\ ~ touched h n g;
  i_subset : forall n g, lost h n g -> touched h n g
}.

Lemma get_lost : forall d h n g, inv d h -> lost h n g -> get (d_sections d) n g = ONull.
Proof.
  intros d h n g I L. unfold get. destruct (resolve_entry n g _) as [e|] eqn:E; [|reflexivity].
  destruct (resolved_item _ _ _ _ E) as (x & Hx & Ex & _). subst e. rewrite (content_item _ x (i_keys _ _ I) Hx). destruct (i_live _ _ I n g x E Hx L) as (off & D). unfold held. rewrite D. reflexivity.
Qed.
Lemma get_wanted : forall d h n g, inv d h -> ~ lost h n g -> get (d_sections d) n g = wanted h n g.
Proof.
  intros d h n g I L. unfold get. destruct (resolve_entry n g _) as [e|] eqn:E; [|symmetry; exact (proj1 (i_none _ _ I n g E))].
  destruct (resolved_item _ _ _ _ E) as (x & Hx & Ex & _). subst e. rewrite (content_item _ x (i_keys _ _ I) Hx). exact (i_wanted _ _ I n g x E Hx L).
Qed.

Lemma write_through_key : forall e v x, key (write_through e v x) = key x.
Proof. intros e v x. unfold write_through. destruct (same_entry _ _); [|reflexivity]. destruct (xdata (f_entry x)) as [|o []|]; reflexivity. Qed.
Lemma write_through_num : forall e v x, xnum (f_entry (write_through e v x)) = xnum (f_entry x) /\ xgen (f_entry (write_through e v x)) = xgen (f_entry x) /\
  xdata (f_entry (write_through e v x)) = xdata (f_entry x).
Proof. intros e v x. unfold write_through. destruct (same_entry _ _); [|auto]. destruct (xdata (f_entry x)) as [|o []|] eqn:D; cbn [f_entry]; auto. Qed.
Lemma write_through_other : forall e v x, key x <> e -> write_through e v x = x.
Proof. intros e v x H. unfold write_through. destruct (same_entry _ _) eqn:E; [|reflexivity]. apply same_entry_eq in E. contradiction. Qed.
Lemma put_same : forall n g o f, put n g o f n g = o.
Proof. intros n g o f. unfold put. rewrite !N.eqb_refl. reflexivity. Qed.
Lemma put_other : forall n g o f n' g', ~ (n' = n /\ g' = g) -> put n g o f n' g' = f n' g'.
Proof. intros n g o f n' g' H. unfold put. destruct (n' =? n) eqn:E1, (g' =? g) eqn:E2; cbn [andb]; try reflexivity. exfalso. apply H. split; lia. Qed.
Lemma resolved_key : forall c n g x, resolve_entry n g (memory_chain c) = Some (key x) -> xnum (f_entry x) = n /\ xgen (f_entry x) = g.
Proof. intros c n g x H. destruct (resolved_item _ _ _ _ H) as (y & _ & _ & E1 & E2). rewrite shown_num in E1. rewrite shown_gen in E2. auto. Qed.

Lemma change_inv : forall d h n g o, inv d h ->
  inv {| d_file := d_file d; d_next := d_next d; d_sections := change_object n g o (d_sections d) |} (next_history h (Change n g o, Done)).
Proof.
  intros d h n g o I. unfold change_object, next_history. destruct (resolve_entry n g (memory_chain (d_sections d))) as [e|] eqn:E.
  2: { rewrite (proj1 (i_none _ _ I n g E)). destruct d. exact I. }
  destruct (resolved_item _ _ _ _ E) as (x & Hx & Ex & En & Eg). subst e. rewrite (content_item _ x (i_keys _ _ I) Hx).
  assert (Hcase : (exists off, xdata (f_entry x) = KUsed off false) \/ ~ exists off, xdata (f_entry x) = KUsed off false).
  { destruct (xdata (f_entry x)) as [next|off [|]|a b]; [right; intros (z & Z); discriminate..|left; exists off; reflexivity|right; intros (z & Z); discriminate]. }
  rewrite shown_num in En. rewrite shown_gen in Eg.
  destruct Hcase as [(off & D)|D].
  - destruct (i_released _ _ I x off Hx D) as (Hd & L). rewrite En, Eg in L. unfold held. rewrite D. cbn [is_null].
    assert (G : inv d {| wanted := put n g o (wanted h); touched := also n g (touched h); lost := lost h |}).
    { constructor; cbn [wanted touched lost].
      - exact (i_keys _ _ I).
      - exact (i_plain _ _ I).
      - intros y Hy Dy. destruct (i_dirty _ _ I y Hy Dy) as (A & B). split; [exact A|right; exact B].
      - exact (i_released _ _ I).
      - intros n' g' y Ey Hy [(-> & ->)|T]; [|exact (i_touched _ _ I n' g' y Ey Hy T)]. rewrite E in Ey. injection Ey as Ey.
        rewrite <- (nodup_key _ x y (i_keys _ _ I) Hx Hy Ey). exact Hd.
      - intros n' g' y Ey Hy NL. rewrite put_other by (intros (-> & ->); contradiction). exact (i_wanted _ _ I n' g' y Ey Hy NL).
      - exact (i_live _ _ I).
      - intros n' g' Ey. assert (Hne : ~ (n' = n /\ g' = g)) by (intros (-> & ->); congruence). rewrite put_other by exact Hne.
        destruct (i_none _ _ I n' g' Ey) as (A & B). split; [exact A|]. intros [C|C]; contradiction.
      - intros n' g' L'. right. exact (i_subset _ _ I n' g' L'). }
    destruct d as [fl nx c]. cbn [d_file d_next d_sections] in *. destruct (wanted h n g); exact G || exact I.
  - assert (NL : ~ lost h n g) by (intros L; apply D; exact (i_live _ _ I n g x E Hx L)).
    assert (W := i_wanted _ _ I n g x E Hx NL).
    destruct (is_null (held x)) eqn:Hnull.
    { assert (Hh : held x = ONull) by (destruct (held x); try discriminate Hnull; reflexivity). rewrite <- W, Hh. destruct d. exact I. }
    assert (Hnn : next_history h (Change n g o, Done) = {| wanted := put n g o (wanted h); touched := also n g (touched h); lost := lost h |}).
    { unfold next_history. rewrite <- W. destruct (held x); try reflexivity. discriminate Hnull. }
    unfold next_history in Hnn. rewrite Hnn. clear Hnn.
    set (c := d_sections d) in *. assert (Hch : memory_chain (on_items (write_through (key x) o) c) = memory_chain c) by (apply on_items_chain; intros; apply write_through_key).
    assert (Hfx : write_through (key x) o x = {| f_entry := f_entry x; f_object := o; f_dirty := true |}).
    { unfold write_through. rewrite (proj2 (same_entry_eq _ _) eq_refl). destruct (xdata (f_entry x)) as [|off []|] eqn:Dx; try reflexivity. exfalso. apply D. exists off. reflexivity. }
    assert (Hheld : held (write_through (key x) o x) = o).
    { rewrite Hfx. unfold held. cbn [f_entry f_object]. destruct (xdata (f_entry x)) as [|off []|] eqn:Dx; try reflexivity. exfalso. apply D. exists off. reflexivity. }
    constructor; cbn [d_sections wanted touched lost]; rewrite ?on_items_items, ?Hch.
    + unfold keys_once. rewrite on_items_items, map_map. assert (K := i_keys _ _ I). unfold keys_once in K. erewrite map_ext; [exact K|]. intros y. apply write_through_key.
    + intros y Hy. apply in_map_iff in Hy. destruct Hy as (z & <- & Hz). unfold no_comp. rewrite (proj2 (proj2 (write_through_num _ _ z))). exact (i_plain _ _ I z Hz).
    + intros y Hy Dy. apply in_map_iff in Hy. destruct Hy as (z & <- & Hz). destruct (write_through_num (key x) o z) as (Z1 & Z2 & _). rewrite Z1, Z2, write_through_key.
      destruct (same_entry (key z) (key x)) eqn:Ez.
      * apply same_entry_eq in Ez. assert (z = x) by (apply (nodup_key (items c)); [exact (i_keys _ _ I)|assumption..]). subst z. rewrite En, Eg. split; [exact E|left; auto].
      * rewrite write_through_other in Dy by (intros K; apply same_entry_eq in K; congruence). destruct (i_dirty _ _ I z Hz Dy) as (A & B). split; [exact A|right; exact B].
    + intros y off Hy Dy. apply in_map_iff in Hy. destruct Hy as (z & <- & Hz). destruct (write_through_num (key x) o z) as (Z1 & Z2 & Z3). rewrite Z1, Z2. rewrite Z3 in Dy.
      destruct (i_released _ _ I z off Hz Dy) as (A & B). split; [|exact B]. unfold write_through. destruct (same_entry _ _); [|exact A]. rewrite Dy. exact A.
    + intros n' g' y Ey Hy T. apply in_map_iff in Hy. destruct Hy as (z & <- & Hz). rewrite write_through_key in Ey. destruct T as [(-> & ->)|T].
      * rewrite E in Ey. injection Ey as Ey. rewrite <- (nodup_key (items c) x z (i_keys _ _ I) Hx Hz Ey), Hfx. reflexivity.
      * assert (A := i_touched _ _ I n' g' z Ey Hz T). unfold write_through. destruct (same_entry _ _); [|exact A]. destruct (xdata (f_entry z)) as [|? []|]; reflexivity || exact A.
    + intros n' g' y Ey Hy NL'. apply in_map_iff in Hy. destruct Hy as (z & <- & Hz). rewrite write_through_key in Ey. destruct (same_entry (key z) (key x)) eqn:Ez.
      * apply same_entry_eq in Ez. assert (z = x) by (apply (nodup_key (items c)); [exact (i_keys _ _ I)|assumption..]). subst z. rewrite Hheld.
        destruct (resolved_key _ _ _ _ Ey) as (A & B). rewrite <- A, <- B, En, Eg. symmetry. apply put_same.
      * rewrite write_through_other by (intros K; apply same_entry_eq in K; congruence). rewrite put_other; [exact (i_wanted _ _ I n' g' z Ey Hz NL')|].
        intros (-> & ->). rewrite E in Ey. injection Ey as Ey. rewrite Ey, (proj2 (same_entry_eq _ _) eq_refl) in Ez. discriminate.
    + intros n' g' y Ey Hy L. apply in_map_iff in Hy. destruct Hy as (z & <- & Hz). rewrite write_through_key in Ey. rewrite (proj2 (proj2 (write_through_num _ _ z))). exact (i_live _ _ I n' g' z Ey Hz L).
    + intros n' g' Ey. assert (Hne : ~ (n' = n /\ g' = g)) by (intros (-> & ->); congruence). rewrite put_other by exact Hne.
      destruct (i_none _ _ I n' g' Ey) as (A & B). split; [exact A|]. intros [C|C]; contradiction.
    + intros n' g' L'. right. exact (i_subset _ _ I n' g' L').
Qed.

(** ** a new object *)
Lemma fadd_perm : forall x l, (forall y, In y l -> xnum (f_entry y) <> xnum (f_entry x)) -> Permutation (fadd x l) (x :: l).
Proof.
  intros x. induction l as [|y l IH]; intros H; [apply Permutation_refl|]. cbn [fadd]. cif; [apply Permutation_refl|]. cif.
  - exfalso. apply (H y (or_introl eq_refl)). lia.
  - eapply Permutation_trans; [apply perm_skip; apply IH; intros z Hz; apply H; right; exact Hz|]. apply perm_swap.
Qed.
Lemma fadd_shown : forall x l, map (fun y => key y) (fadd x l) = xadd (key x) (map (fun y => key y) l).
Proof.
  intros x. induction l as [|y l IH]; [reflexivity|]. cbn [fadd map xadd]. rewrite !shown_num. cif; [reflexivity|]. cif; [reflexivity|]. cbn [map]. rewrite IH. reflexivity.
Qed.
Lemma create_shape : forall o d i d', create_object o d = Ok (i, d') -> exists s t,
  d_sections d = s :: t /\ ~ present i (memory_chain (d_sections d)) /\ d_next d <= i /\
  d' = {| d_file := d_file d; d_next := i + 1;
          d_sections := {| f_offset := f_offset s; f_items := fadd {| f_entry := new_entry i; f_object := o; f_dirty := true |} (f_items s); f_trailer := f_trailer s |} :: t |} /\
  memory_chain (d_sections d') = with_entries (shown_section s) (xadd (new_entry i) (s_entries (shown_section s))) :: memory_chain t.
Proof.
  intros o d i d' H. unfold create_object in H. apply rbind_ok in H. destruct H as ([i' c'] & Ha & H).
  apply (f_equal (fun r => match r with Ok p => Some p | _ => None end)) in H. cbv beta iota in H.
  assert (H1 := f_equal (fun r => match r with Some (a, _) => a | None => 0 end) H). assert (H2 := f_equal (fun r => match r with Some (_, a) => a | None => d end) H). cbv beta iota in H1, H2. subst i'. clear H.
  apply allocate_from_ok in Ha. destruct Ha as (A1 & A2 & _ & s0 & t0 & A3 & _). destruct (d_sections d) as [|s t] eqn:Ed; [discriminate|].
  exists s, t. split; [reflexivity|]. split; [exact A2|]. split; [lia|]. split; [symmetry; exact H2|].
  rewrite <- H2. cbn [d_sections memory_chain map]. f_equal. unfold shown_section, with_entries. cbn [f_items f_trailer s_kind s_entries s_hybrid s_trailer]. rewrite fadd_shown. reflexivity.
Qed.
Lemma not_present_items : forall i c, ~ present i (memory_chain c) -> forall x, In x (items c) -> xnum (f_entry x) <> i.
Proof.
  intros i c H x Hx E. apply H. apply in_flat_map in Hx. destruct Hx as (s & Hs & Hx). exists (shown_section s), (key x).
  split; [apply in_map; exact Hs|]. split; [left; cbn [shown_section s_entries]; apply (in_map (fun x => key x)); exact Hx|]. rewrite shown_num. exact E.
Qed.
Lemma not_present_chain : forall n g c, ~ present n (memory_chain c) -> chain_entry n g (memory_chain c) = None.
Proof.
  intros n g. induction c as [|s c IH]; intros H; [reflexivity|]. cbn [memory_chain map chain_entry].
  assert (Hs : sec_find n (shown_section s) = None).
  { unfold sec_find. cbn [shown_section s_entries s_kind s_hybrid]. rewrite (proj2 (xfind_none _ _)); [reflexivity|]. intros x Hx E. apply H.
    exists (shown_section s), x. split; [left; reflexivity|]. split; [left; exact Hx|exact E]. }
  rewrite Hs. apply IH. intros (s' & e & Hs' & R). apply H. exists s', e. split; [right; exact Hs'|exact R].
Qed.

Lemma create_resolve : forall o d i d', create_object o d = Ok (i, d') ->
  resolve_entry i 0 (memory_chain (d_sections d')) = Some (new_entry i) /\
  (forall g, g <> 0 -> resolve_entry i g (memory_chain (d_sections d')) = None) /\
  (forall n g, n <> i -> resolve_entry n g (memory_chain (d_sections d')) = resolve_entry n g (memory_chain (d_sections d))) /\
  forall g, resolve_entry i g (memory_chain (d_sections d)) = None.
Proof.
  intros o d i d' H. destruct (create_shape o d i d' H) as (s & t & Ed & Hp & _ & _ & Hch). rewrite Hch, Ed in *. split; [|split; [|split]].
  - unfold resolve_entry. change (chain_entry i 0) with (chain_entry (xnum (new_entry i)) (xgen (new_entry i))). rewrite chain_entry_first_same. reflexivity.
  - intros g Hg. unfold resolve_entry. cbn [chain_entry]. change (sec_find i) with (sec_find (xnum (new_entry i))) at 1. rewrite sec_find_with_same. cbn [new_entry xgen].
    replace (0 =? g) with false by lia. rewrite not_present_chain; [reflexivity|]. intros (s' & e & Hs & R). apply Hp. exists s', e. split; [right; exact Hs|exact R].
  - intros n g Hn. unfold resolve_entry. rewrite chain_entry_first_other by (cbn; congruence). reflexivity.
  - intros g. unfold resolve_entry. rewrite not_present_chain by exact Hp. reflexivity.
Qed.
Lemma create_items : forall o d i d', create_object o d = Ok (i, d') ->
  Permutation (items (d_sections d')) ({| f_entry := new_entry i; f_object := o; f_dirty := true |} :: items (d_sections d)).
Proof.
  intros o d i d' H. destruct (create_shape o d i d' H) as (s & t & Ed & Hp & _ & Ed' & _). rewrite Ed', Ed in *. cbn [d_sections flat_map f_items].
  change (?x :: f_items s ++ ?l) with ((x :: f_items s) ++ l). apply Permutation_app_tail. apply fadd_perm. intros y Hy. cbn [f_entry new_entry xnum].
  apply (not_present_items i (s :: t) Hp). cbn [flat_map]. apply in_or_app. left. exact Hy.
Qed.
Lemma create_inv : forall d h o i d', inv d h -> create_object o d = Ok (i, d') -> inv d' (next_history h (Create o, Number (Ok i))).
Proof.
  intros d h o i d' I H. destruct (create_resolve o d i d' H) as (R1 & R2 & R3 & R4). assert (P := create_items o d i d' H).
  destruct (create_shape o d i d' H) as (_ & _ & _ & Hp & _). assert (Hfresh := not_present_items i _ Hp).
  set (x0 := {| f_entry := new_entry i; f_object := o; f_dirty := true |}) in *.
  assert (Hin : forall y, In y (items (d_sections d')) -> y = x0 \/ In y (items (d_sections d))).
  { intros y Hy. apply (Permutation_in y P) in Hy. destruct Hy as [<-|Hy]; auto. }
  assert (Hlost0 : forall g, ~ touched h i g) by (intros g; exact (proj2 (i_none _ _ I i g (R4 g)))).
  constructor; cbn [next_history wanted touched lost].
  - unfold keys_once. assert (Pk := Permutation_map (fun x => key x) P). apply (Permutation_NoDup (Permutation_sym Pk)). cbn [map]. constructor; [|exact (i_keys _ _ I)].
    intros Hk. apply in_map_iff in Hk. destruct Hk as (y & Ey & Hy). apply (Hfresh y Hy). rewrite <- (shown_num (f_entry y)), Ey. reflexivity.
  - intros y Hy. destruct (Hin y Hy) as [->|Hy']; [exact Logic.I|exact (i_plain _ _ I y Hy')].
  - intros y Hy Dy. destruct (Hin y Hy) as [->|Hy']; [split; [exact R1|left; auto]|]. destruct (i_dirty _ _ I y Hy' Dy) as (A & B).
    split; [rewrite R3 by (apply Hfresh; exact Hy'); exact A|right; exact B].
  - intros y off Hy Dy. destruct (Hin y Hy) as [->|Hy']; [discriminate|exact (i_released _ _ I y off Hy' Dy)].
  - intros n g y Ey Hy T. destruct (Hin y Hy) as [->|Hy']; [reflexivity|]. destruct (resolved_key _ _ _ _ Ey) as (A & B).
    assert (Hn : n <> i) by (rewrite <- A; apply Hfresh; exact Hy'). rewrite R3 in Ey by exact Hn. destruct T as [(-> & _)|T]; [contradiction|]. exact (i_touched _ _ I n g y Ey Hy' T).
  - intros n g y Ey Hy NL. destruct (Hin y Hy) as [->|Hy'].
    + destruct (resolved_key _ _ _ _ Ey) as (A & B). cbn in A, B. subst n g. symmetry. apply put_same.
    + destruct (resolved_key _ _ _ _ Ey) as (A & B). assert (Hn : n <> i) by (rewrite <- A; apply Hfresh; exact Hy'). rewrite R3 in Ey by exact Hn.
      rewrite put_other by tauto. exact (i_wanted _ _ I n g y Ey Hy' NL).
  - intros n g y Ey Hy L. destruct (Hin y Hy) as [->|Hy'].
    + exfalso. destruct (resolved_key _ _ _ _ Ey) as (A & B). cbn in A, B. subst n g. exact (Hlost0 0 (i_subset _ _ I _ _ L)).
    + destruct (resolved_key _ _ _ _ Ey) as (A & B). assert (Hn : n <> i) by (rewrite <- A; apply Hfresh; exact Hy'). rewrite R3 in Ey by exact Hn. exact (i_live _ _ I n g y Ey Hy' L).
  - intros n g En. destruct (N.eq_dec n i) as [->|Hn].
    + destruct (N.eq_dec g 0) as [->|Hg]; [congruence|]. rewrite put_other by tauto. split; [exact (proj1 (i_none _ _ I i g (R4 g)))|]. intros [(_ & C)|C]; [contradiction|exact (Hlost0 g C)].
    + rewrite R3 in En by exact Hn. rewrite put_other by tauto. destruct (i_none _ _ I n g En) as (A & B). split; [exact A|]. intros [(C & _)|C]; contradiction.
  - intros n g L. right. exact (i_subset _ _ I n g L).
Qed.

(** ** an incremental save *)
Lemma update_inv : forall d h x, inv d h ->
  inv {| d_file := d_file d; d_next := d_next d; d_sections := release_sections (d_sections d) |} (next_history h (SaveUpdate, x)).
Proof.
  intros d h a I. rewrite (release_sections_map _ (i_plain _ _ I)). set (c := d_sections d) in *.
  assert (Hch : memory_chain (on_items release c) = memory_chain c) by (apply on_items_chain; intros; apply release_key).
  assert (Hnum : forall z, xnum (f_entry (release z)) = xnum (f_entry z) /\ xgen (f_entry (release z)) = xgen (f_entry z)).
  { intros z. split; [rewrite <- (shown_num (f_entry (release z))), release_key, shown_num|rewrite <- (shown_gen (f_entry (release z))), release_key, shown_gen]; reflexivity. }
  assert (Hdirty : forall z, f_dirty (release z) = f_dirty z).
  { intros z. unfold release. destruct (f_dirty z) eqn:D; [|exact D]. destruct (xdata (f_entry z)) as [|p []|]; reflexivity || exact D. }
  constructor; cbn [d_sections next_history wanted touched lost]; rewrite ?on_items_items, ?Hch.
  - unfold keys_once. rewrite on_items_items, map_map. assert (K := i_keys _ _ I). unfold keys_once in K. erewrite map_ext; [exact K|]. intros y. apply release_key.
  - intros y Hy. apply in_map_iff in Hy. destruct Hy as (z & <- & Hz). assert (A := i_plain _ _ I z Hz). unfold no_comp, release in *. destruct (f_dirty z); [|exact A].
    destruct (xdata (f_entry z)) as [|p []|] eqn:D; cbn [f_entry xdata]; rewrite ?D; exact Logic.I || exact A.
  - intros y Hy Dy. apply in_map_iff in Hy. destruct Hy as (z & <- & Hz). rewrite Hdirty in Dy. rewrite (proj1 (Hnum z)), (proj2 (Hnum z)), release_key. exact (i_dirty _ _ I z Hz Dy).
  - intros y off Hy Dy. apply in_map_iff in Hy. destruct Hy as (z & <- & Hz). rewrite (proj1 (Hnum z)), (proj2 (Hnum z)), Hdirty.
    assert (Dz : f_dirty z = true).
    { unfold release in Dy. destruct (f_dirty z) eqn:E; [reflexivity|]. rewrite <- E. exact (proj1 (i_released _ _ I z off Hz Dy)). }
    split; [exact Dz|]. exact (proj2 (i_dirty _ _ I z Hz Dz)).
  - intros n g y Ey Hy T. apply in_map_iff in Hy. destruct Hy as (z & <- & Hz). rewrite release_key in Ey. rewrite Hdirty. exact (i_touched _ _ I n g z Ey Hz T).
  - intros n g y Ey Hy NT. apply in_map_iff in Hy. destruct Hy as (z & <- & Hz). rewrite release_key in Ey.
    assert (Dz : f_dirty z = false).
    { destruct (f_dirty z) eqn:E; [|reflexivity]. exfalso. apply NT. destruct (resolved_key _ _ _ _ Ey) as (A & B). rewrite <- A, <- B. exact (proj2 (i_dirty _ _ I z Hz E)). }
    unfold release. rewrite Dz. apply (i_wanted _ _ I n g z Ey Hz). intros L. apply NT. exact (i_subset _ _ I n g L).
  - intros n g y Ey Hy T. apply in_map_iff in Hy. destruct Hy as (z & <- & Hz). rewrite release_key in Ey. assert (Dz := i_touched _ _ I n g z Ey Hz T).
    unfold release. rewrite Dz. assert (A := i_plain _ _ I z Hz). assert (B := resolved_not_free _ _ _ _ 0 Ey). unfold no_comp in A.
    destruct (f_entry z) as [zn zg [next|p []|? ?]] eqn:Ez; cbn [xdata f_entry]; [|exists p; reflexivity|exists p; rewrite Ez; reflexivity|destruct A].
    exfalso. apply (resolved_not_free _ _ _ _ next Ey). reflexivity.
  - intros n g En. exact (i_none _ _ I n g En).
  - auto.
Qed.

(** ** any sequence *)
Section Run.
Variable real : bool -> N -> N -> dbl.
Variable hash : value -> N.
Variable order : list (xentry * obj) -> list N.
Variable arrange : list ditem -> list ditem.
Variable v : version.
Notation step := (step real hash order arrange v).
Notation run := (run real hash order arrange v).

Lemma step_inv : forall d h a, inv d h -> inv (fst (step d a)) (next_history h (a, snd (step d a))).
Proof.
  intros d h [n g|n g o|o| |] I; cbn [Resave.step fst snd].
  - exact I.
  - exact (change_inv d h n g o I).
  - destruct (create_object o d) as [[i d']|e| |] eqn:E; cbn [fst snd]; try exact I. exact (create_inv d h o i d' I E).
  - exact I.
  - apply update_inv. exact I.
Qed.
Lemma run_inv : forall l d h, inv d h -> inv (fst (run d l)) (fold_left next_history (combine l (snd (run d l))) h).
Proof.
  induction l as [|a l IH]; intros d h I; [exact I|]. cbn [Resave.run]. assert (S := step_inv d h a I). destruct (step d a) as [d1 x] eqn:E1. cbn [fst snd] in S.
  specialize (IH d1 _ S). destruct (run d1 l) as [d2 xs]. exact IH.
Qed.
End Run.

(** ** a document that was just opened *)
Lemma find_append : forall {A} (f : A -> bool) a b, find f (a ++ b) = match find f a with Some x => Some x | None => find f b end.
Proof. intros A f a b. induction a as [|x a IH]; [reflexivity|]. cbn [app find]. destruct (f x); [reflexivity|exact IH]. Qed.
Notation at_key n g := (fun x => (xnum (f_entry x) =? n) && (xgen (f_entry x) =? g)).
Lemma find_section : forall n g (l : list fentry), NoDup (map (fun x => xnum (f_entry x)) l) ->
  match xfind n (map (fun x => key x) l) with
  | Some e => if xgen e =? g then exists x, find (at_key n g) l = Some x /\ e = key x else find (at_key n g) l = None
  | None => find (at_key n g) l = None
  end.
Proof.
  intros n g. induction l as [|x l IH]; intros H; [reflexivity|]. cbn [map] in *. inversion H as [|? ? Hn Hl]; subst. unfold xfind. cbn [find]. rewrite shown_num.
  destruct (xnum (f_entry x) =? n) eqn:En; cbn [andb].
  - rewrite shown_gen. destruct (xgen (f_entry x) =? g) eqn:Eg; [exists x; auto|]. destruct (find _ l) as [y|] eqn:Ey; [|reflexivity]. exfalso. apply find_some in Ey. destruct Ey as (Hy & Ey).
    apply andb_true_iff in Ey. apply Hn. apply in_map_iff. exists y. split; [lia|exact Hy].
  - apply IH. exact Hl.
Qed.
Lemma find_chain : forall n g c, (forall s, In s c -> NoDup (map (fun x => xnum (f_entry x)) (f_items s))) ->
  chain_entry n g (memory_chain c) = option_map (fun x => key x) (find (at_key n g) (items c)).
Proof.
  intros n g. induction c as [|s c IH]; intros H; [reflexivity|]. cbn [memory_chain map chain_entry flat_map]. rewrite find_append.
  assert (F := find_section n g (f_items s) (H s (or_introl eq_refl))). assert (IH' := IH (fun s' Hs => H s' (or_intror Hs))). clear IH.
  unfold sec_find. cbn [shown_section s_entries s_kind s_hybrid]. destruct (xfind n _) as [e|]; [|rewrite F; exact IH'].
  destruct (xgen e =? g); [destruct F as (x & F & ->); rewrite F; reflexivity|rewrite F; exact IH'].
Qed.
Lemma opened_shown : forall d x, just_opened d -> In x (items (d_sections d)) -> key x = f_entry x.
Proof.
  intros d x (_ & _ & _ & H) Hx. destruct (H x Hx) as (_ & _ & D). unfold shown. destruct (f_entry x) as [n g [|o u|]]; cbn [xdata xnum xgen] in *; [reflexivity|subst u; reflexivity|reflexivity].
Qed.
Lemma opened_inv : forall d, just_opened d -> inv d {| wanted := objects_of d; touched := fun _ _ => False; lost := fun _ _ => False |}.
Proof.
  intros d O. assert (O' := O). destruct O as (_ & O2 & O3 & O4).
  constructor; cbn [wanted touched lost].
  - unfold keys_once. erewrite map_ext_in; [exact O3|]. intros x Hx. exact (opened_shown d x O' Hx).
  - intros x Hx. destruct (O4 x Hx) as (_ & _ & D). unfold no_comp. destruct (xdata (f_entry x)); exact Logic.I || exact D.
  - intros x Hx Dx. destruct (O4 x Hx) as (D & _). congruence.
  - intros x off Hx Dx. destruct (O4 x Hx) as (_ & _ & D). rewrite Dx in D. discriminate.
  - intros n g x _ _ [].
  - intros n g x Ex Hx _. unfold objects_of. unfold resolve_entry in Ex. rewrite (find_chain n g _ O2) in Ex.
    destruct (find _ _) as [y|] eqn:Ey; cbn [option_map] in Ex; [|discriminate]. assert (E : key y = key x) by (destruct (xdata (key y)); congruence).
    apply find_some in Ey. destruct Ey as (Hy & _).
    assert (y = x). { apply (nodup_key (items (d_sections d))); [|assumption..]. erewrite map_ext_in; [exact O3|]. intros z Hz. exact (opened_shown d z O' Hz). }
    subst y. rewrite (opened_shown d x O' Hx) in Ex. unfold held. destruct (O4 x Hx) as (_ & _ & D). destruct (xdata (f_entry x)) as [|o u|]; [discriminate|subst u; reflexivity|reflexivity].
  - intros n g x _ _ [].
  - intros n g En. split; [|tauto]. unfold objects_of. unfold resolve_entry in En. rewrite (find_chain n g _ O2) in En.
    destruct (find _ _) as [y|] eqn:Ey; cbn [option_map] in En; [|reflexivity]. apply find_some in Ey. destruct Ey as (Hy & _). rewrite (opened_shown d y O' Hy) in En.
    destruct (xdata (f_entry y)); [reflexivity|discriminate..].
  - auto.
Qed.
Lemma opened_tables : forall d, just_opened d -> memory_chain (d_sections d) = tables_of d.
Proof.
  intros d O. unfold memory_chain, tables_of. apply map_ext_in. intros s Hs. unfold shown_section, as_section. f_equal. apply map_ext_in. intros x Hx.
  apply (opened_shown d x O). apply in_flat_map. exists s. auto.
Qed.

(** ** what stays the same *)
Lemma fadd_nums_nodup : forall x l, (forall y, In y l -> xnum (f_entry y) <> xnum (f_entry x)) -> NoDup (map (fun x => xnum (f_entry x)) l) -> NoDup (map (fun x => xnum (f_entry x)) (fadd x l)).
Proof.
  intros x l H N0. assert (P := Permutation_map (fun x => xnum (f_entry x)) (fadd_perm x l H)). apply (Permutation_NoDup (Permutation_sym P)). cbn [map]. constructor; [|exact N0].
  intros Hk. apply in_map_iff in Hk. destruct Hk as (y & Ey & Hy). exact (H y Hy Ey).
Qed.
Lemma xadd_nodup : forall e l, (forall y, In y l -> xnum y <> xnum e) -> NoDup (map xnum l) -> NoDup (map xnum (xadd e l)).
Proof.
  intros e. induction l as [|y l IH]; intros H N0; [repeat constructor; intros []|]. cbn [xadd]. cif; [|cif].
  - cbn [map]. constructor; [|exact N0]. change (~ In (xnum e) (map xnum (y :: l))). intros Hk. apply in_map_iff in Hk. destruct Hk as (z & Ez & Hz). exact (H z Hz Ez).
  - exfalso. apply (H y (or_introl eq_refl)). lia.
  - cbn [map] in *. inversion N0 as [|? ? N1 N2]; subst. constructor; [|apply IH; [intros z Hz; apply H; right; exact Hz|exact N2]].
    intros Hk. apply in_map_iff in Hk. destruct Hk as (z & Ez & Hz). apply in_xadd in Hz. destruct Hz as [->|Hz]; [apply (H y (or_introl eq_refl)); symmetry; exact Ez|].
    apply N1. rewrite <- Ez. apply in_map. exact Hz.
Qed.
Lemma plain_create : forall s t i, plain_tables (s :: t) -> ~ present i (s :: t) -> plain_tables (with_entries s (xadd (new_entry i) (s_entries s)) :: t).
Proof.
  intros s t i (_ & H) Hp. split; [discriminate|]. intros s' [<-|Hs]; [|apply H; right; exact Hs]. destruct (H s (or_introl eq_refl)) as (A & B & C & D).
  cbn [with_entries s_kind s_entries s_hybrid]. split; [exact A|]. split; [exact B|]. split.
  - apply xadd_nodup; [|exact C]. intros y Hy E. apply Hp. exists s, y. split; [left; reflexivity|]. split; [left; exact Hy|exact E].
  - intros e He. apply in_xadd in He. destruct He as [->|He]; [cbn; split; [lia|reflexivity]|exact (D e He)].
Qed.
Lemma xadd_in : forall x e l, In x l -> xnum x <> xnum e -> In x (xadd e l).
Proof.
  intros x e. induction l as [|y l IH]; intros Hx Hn; [destruct Hx|]. cbn [xadd]. cif; [right; exact Hx|]. cif.
  - destruct Hx as [->|Hx]; [exfalso; apply Hn; lia|right; exact Hx].
  - destruct Hx as [->|Hx]; [left; reflexivity|right; apply IH; assumption].
Qed.
Lemma deleted_create : forall s t i, (forall x, In x (s :: t) -> s_hybrid x = None) -> nothing_deleted (s :: t) -> ~ present i (s :: t) -> nothing_deleted (with_entries s (xadd (new_entry i) (s_entries s)) :: t).
Proof.
  intros s t i Hh H Hp newer s1 older e s' e' Ec He Hn Hs' He' En Hd.
  assert (Hfresh : forall x y, In x (s :: t) -> In y (s_entries x) -> xnum y <> i).
  { intros x y Hx Hy E. apply Hp. exists x, y. split; [exact Hx|]. split; [left; exact Hy|exact E]. }
  destruct newer as [|a newer].
  - injection Ec as <- <-. cbn [with_entries s_entries] in He. apply in_xadd in He. destruct He as [->|He].
    + exfalso. apply (Hfresh s' e' (or_intror Hs') He'). exact En.
    + apply (H [] s t e s' e' eq_refl He); [intros x y []|assumption..].
  - injection Ec as <- Et. subst t. apply (H (s :: newer) s1 older e s' e' eq_refl He); [|assumption..].
    intros x y [<-|Hx] Hy; [|apply (Hn x y); [right; exact Hx|exact Hy]]. destruct (N.eq_dec (xnum y) i) as [E|E].
    + exfalso. exact (Hfresh s y (or_introl eq_refl) Hy E).
    + apply (Hn (with_entries s (xadd (new_entry i) (s_entries s))) y); [left; reflexivity|]. cbn [with_entries s_entries]. apply xadd_in; [exact Hy|exact E].
Qed.
(** the frame: the file, the first trailer and offset stay, and the sections stay plain *)
Record kept (d0 d : document) (k : nat) : Prop := {
  k_file : d_file d = d_file d0;
  k_first : match d_sections d0, d_sections d with
            | s0 :: _, s :: _ => f_offset s = f_offset s0 /\ f_trailer s = f_trailer s0
            | _, _ => False
            end;
  k_size : (List.length (items (d_sections d)) <= List.length (items (d_sections d0)) + k)%nat;
  k_plain : plain_tables (memory_chain (d_sections d));
  k_deleted : nothing_deleted (memory_chain (d_sections d))
}.
Section Kept.
Variable real : bool -> N -> N -> dbl.
Variable hash : value -> N.
Variable order : list (xentry * obj) -> list N.
Variable arrange : list ditem -> list ditem.
Variable v : version.
Notation step := (step real hash order arrange v).
Notation run := (run real hash order arrange v).
Lemma kept_more : forall d0 d k, kept d0 d k -> kept d0 d (S k).
Proof. intros d0 d k [A B C D E]. constructor; try assumption. lia. Qed.
Lemma kept_map : forall d0 d k f, kept d0 d k -> (forall x, In x (items (d_sections d)) -> key (f x) = key x) ->
  kept d0 {| d_file := d_file d; d_next := d_next d; d_sections := on_items f (d_sections d) |} (S k).
Proof.
  intros d0 d k f [A B C D E] H. constructor; cbn [d_file d_sections].
  - exact A.
  - destruct (d_sections d0); [destruct B|]. destruct (d_sections d) as [|s t]; [destruct B|]. exact B.
  - rewrite on_items_items, map_length. lia.
  - rewrite on_items_chain by exact H. exact D.
  - rewrite on_items_chain by exact H. exact E.
Qed.
Lemma step_kept : forall d0 d k h a, kept d0 d k -> inv d h -> kept d0 (fst (step d a)) (S k).
Proof.
  intros d0 d k h [n g|n g o|o| |] K I; cbn [Resave.step fst].
  - apply kept_more. exact K.
  - unfold change_object. destruct (resolve_entry n g _) as [e|]; [|apply kept_more in K; destruct d; exact K]. destruct (is_null _); [apply kept_more in K; destruct d; exact K|].
    apply kept_map; [exact K|]. intros x _. apply write_through_key.
  - destruct (create_object o d) as [[i d']|e| |] eqn:E; cbn [fst]; try (apply kept_more; exact K).
    assert (P := create_items o d i d' E). destruct (create_shape o d i d' E) as (s & t & Es & Hp & _ & Ed' & Hch). destruct K as [A B C D F]. constructor.
    + rewrite Ed'. exact A.
    + rewrite Ed'. cbn [d_sections f_offset f_trailer]. rewrite Es in B. exact B.
    + rewrite (Permutation_length P). cbn [List.length]. lia.
    + rewrite Hch. rewrite Es in *. apply plain_create; [exact D|exact Hp].
    + rewrite Hch. rewrite Es in *. apply deleted_create; [|exact F|exact Hp]. intros x Hx. exact (proj1 (proj2 (proj2 D x Hx))).
  - apply kept_more. exact K.
  - rewrite (release_sections_map _ (i_plain _ _ I)). apply kept_map; [exact K|]. intros x _. apply release_key.
Qed.
Lemma run_kept : forall l d0 d k h, kept d0 d k -> inv d h -> kept d0 (fst (run d l)) (k + List.length l).
Proof.
  induction l as [|a l IH]; intros d0 d k h K I; cbn [Resave.run List.length]; [rewrite Nat.add_0_r; exact K|].
  assert (S1 := step_inv real hash order arrange v d h a I). assert (S2 := step_kept d0 d k h a K I). destruct (step d a) as [d1 x]. cbn [fst snd] in *.
  specialize (IH d0 d1 (S k) _ S2 S1). destruct (run d1 l) as [d2 xs]. cbn [fst] in *. replace (k + S (List.length l))%nat with (S k + List.length l)%nat by lia. exact IH.
Qed.
Lemma opened_kept : forall d, just_opened d -> nothing_deleted (tables_of d) -> kept d d 0.
Proof.
  intros d O Hd. assert (O' := O). destruct O as (O1 & O2 & O3 & O4). constructor.
  - reflexivity.
  - destruct (d_sections d); [congruence|auto].
  - lia.
  - split; [intros E; apply O1; destruct (d_sections d); [reflexivity|discriminate]|]. intros s Hs. apply in_map_iff in Hs. destruct Hs as (s0 & <- & Hs).
    cbn [shown_section s_kind s_entries s_hybrid]. split; [reflexivity|]. split; [reflexivity|]. split.
    + rewrite map_map. erewrite map_ext; [exact (O2 s0 Hs)|]. intros x. apply shown_num.
    + intros e He. apply in_map_iff in He. destruct He as (x & <- & Hx). assert (Hi : In x (items (d_sections d))) by (apply in_flat_map; exists s0; auto).
      rewrite (opened_shown d x O' Hi). exact (proj2 (O4 x Hi)).
  - rewrite (opened_tables d O'). exact Hd.
Qed.
End Kept.

(** ** generations *)
Lemma first_with : forall n g c e, chain_entry n g c = Some e -> (forall s, In s c -> s_hybrid s = None) -> exists newer s older e0,
  c = newer ++ s :: older /\ In e0 (s_entries s) /\ xnum e0 = n /\ (forall x y, In x newer -> In y (s_entries x) -> xnum y <> n) /\
  xfind n (s_entries s) = Some e0 /\ (e = e0 \/ exists s', In s' older /\ In e (s_entries s') /\ xnum e = n) /\ xgen e = g.
Proof.
  intros n g. induction c as [|s c IH]; intros e H Hh; [discriminate|]. cbn [chain_entry] in H. unfold sec_find in H. rewrite (Hh s (or_introl eq_refl)) in H.
  destruct (xfind n (s_entries s)) as [e0|] eqn:E0.
  - exists [], s, c, e0. destruct (xfind_some _ _ _ E0) as (A & B). split; [reflexivity|]. split; [exact A|]. split; [exact B|]. split; [intros x y []|]. split; [exact E0|].
    destruct (xgen e0 =? g) eqn:Eg; [injection H as ->; split; [left; reflexivity|lia]|].
    destruct (IH e H (fun s' Hs => Hh s' (or_intror Hs))) as (nw & s' & ol & e1 & Ec & F1 & F2 & _ & _ & F3 & F4). split; [|exact F4]. right. destruct F3 as [->|(s2 & G1 & G2 & G3)].
    + exists s'. split; [rewrite Ec; apply in_or_app; right; left; reflexivity|auto].
    + exists s2. split; [rewrite Ec; apply in_or_app; right; right; exact G1|auto].
  - assert (H' : chain_entry n g c = Some e) by (destruct (s_kind s); exact H). destruct (IH e H' (fun s' Hs => Hh s' (or_intror Hs))) as (nw & s' & ol & e1 & Ec & F1 & F2 & F3 & F4).
    exists (s :: nw), s', ol, e1. split; [rewrite Ec; reflexivity|]. split; [exact F1|]. split; [exact F2|]. split; [|exact F4].
    intros x y [<-|Hx] Hy; [exact (proj1 (xfind_none _ _) E0 y Hy)|exact (F3 x y Hx Hy)].
Qed.
Lemma split_unique : forall n (a1 : chain) s1 b1 a2 s2 b2, a1 ++ s1 :: b1 = a2 ++ s2 :: b2 ->
  (forall x y, In x a1 -> In y (s_entries x) -> xnum y <> n) -> (forall x y, In x a2 -> In y (s_entries x) -> xnum y <> n) ->
  (exists y, In y (s_entries s1) /\ xnum y = n) -> (exists y, In y (s_entries s2) /\ xnum y = n) -> s1 = s2 /\ b1 = b2.
Proof.
  intros n. induction a1 as [|x a1 IH]; intros s1 b1 a2 s2 b2 E H1 H2 (y1 & G1 & G1') (y2 & G2 & G2').
  - destruct a2 as [|x2 a2]; cbn [app] in E; [injection E as -> ->; auto|]. injection E as -> _. exfalso. exact (H2 x2 y1 (or_introl eq_refl) G1 G1').
  - destruct a2 as [|x2 a2]; cbn [app] in E.
    + injection E as -> _. exfalso. exact (H1 s2 y2 (or_introl eq_refl) G2 G2').
    + injection E as -> E. apply (IH s1 b1 a2 s2 b2 E); [intros u w Hu; apply H1; right; exact Hu|intros u w Hu; apply H2; right; exact Hu|eauto|eauto].
Qed.
Lemma one_generation : forall n g g' c e e', plain_tables c -> nothing_deleted c -> resolve_entry n g c = Some e -> resolve_entry n g' c = Some e' -> g = g'.
Proof.
  intros n g g' c e e' (_ & Hp) Hd H H'.
  assert (K : forall g e, resolve_entry n g c = Some e -> chain_entry n g c = Some e /\ describes_object e).
  { clear - Hp. intros g e H. unfold resolve_entry in H. destruct (chain_entry n g c) as [x|] eqn:E; [|discriminate].
    assert (Hx : x = e /\ forall next, xdata x <> KFree next) by (destruct (xdata x); split; try congruence). destruct Hx as (-> & Hf). split; [reflexivity|].
    destruct (first_with n g c e E (fun s Hs => proj1 (proj2 (Hp s Hs)))) as (nw & s & ol & e0 & Ec & F1 & _ & _ & _ & F & _).
    assert (Hin : exists s, In s c /\ In e (s_entries s)).
    { destruct F as [->|(s' & G1 & G2 & _)]; [exists s|exists s']; (split; [rewrite Ec; apply in_or_app; right|]); [left; reflexivity|exact F1|right; exact G1|exact G2]. }
    destruct Hin as (s2 & I1 & I2). destruct (Hp s2 I1) as (_ & _ & _ & D). destruct (D e I2) as (_ & D'). unfold describes_object. destruct (xdata e) as [next| |] eqn:De; [exact (Hf next eq_refl)|exact D'|destruct D']. }
  destruct (K g e H) as (C1 & D1). destruct (K g' e' H') as (C2 & D2). clear K H H'.
  destruct (first_with n g c e C1 (fun s Hs => proj1 (proj2 (Hp s Hs)))) as (nw & s & ol & e0 & Ec & F1 & F2 & F3 & F4 & F5 & F6).
  destruct (first_with n g' c e' C2 (fun s Hs => proj1 (proj2 (Hp s Hs)))) as (nw' & s' & ol' & e0' & Ec' & F1' & F2' & F3' & F4' & F5' & F6').
  rewrite Ec in Ec'. destruct (split_unique n _ _ _ _ _ _ Ec' F3 F3' (ex_intro _ e0 (conj F1 F2)) (ex_intro _ e0' (conj F1' F2'))) as (<- & <-).
  rewrite F4 in F4'. injection F4' as <-.
  assert (G : forall e1, describes_object e1 -> e1 = e0 \/ (exists s', In s' ol /\ In e1 (s_entries s') /\ xnum e1 = n) -> xgen e1 = xgen e0).
  { intros e1 De [->|(s' & G1 & G2 & G3)]; [reflexivity|]. symmetry. apply (Hd nw s ol e0 s' e1 Ec F1); [|exact G1|exact G2|congruence|exact De]. intros x y Hx Hy E. apply (F3 x y Hx Hy). congruence. }
  rewrite <- F6, <- F6'. rewrite (G e D1 F5), (G e' D2 F5'). reflexivity.
Qed.

(** ** what an incremental save writes *)
Lemma live_item : forall d h n g, inv d h -> touched h n g -> ~ lost h n g -> exists x off, In x (items (d_sections d)) /\ f_dirty x = true /\
  f_entry x = {| xnum := n; xgen := g; xdata := KUsed off true |} /\ f_object x = wanted h n g.
Proof.
  intros d h n g I T L. destruct (resolve_entry n g (memory_chain (d_sections d))) as [e|] eqn:E; [|exfalso; exact (proj2 (i_none _ _ I n g E) T)].
  destruct (resolved_item _ _ _ _ E) as (x & Hx & Ex & En & Eg). subst e. rewrite shown_num in En. rewrite shown_gen in Eg.
  assert (Hd := i_touched _ _ I n g x E Hx T). assert (Hc := i_plain _ _ I x Hx). assert (W := i_wanted _ _ I n g x E Hx L). unfold no_comp in Hc. unfold held in W.
  destruct (f_entry x) as [xn xg [next|off [|]|? ?]] eqn:Ee; cbn [xdata xnum xgen] in *; [| | |destruct Hc].
  - exfalso. apply (resolved_not_free _ _ _ _ next E). reflexivity.
  - exists x, off. subst xn xg. auto.
  - exfalso. apply L. assert (R := i_released _ _ I x off Hx). rewrite Ee in R. cbn [xdata xnum xgen] in R. rewrite En, Eg in R. exact (proj2 (R eq_refl)).
Qed.
Lemma dirty_item : forall d h x, inv d h -> In x (items (d_sections d)) -> f_dirty x = true ->
  let n := xnum (f_entry x) in let g := xgen (f_entry x) in
  (exists off, xdata (f_entry x) = KUsed off false) \/
  (touched h n g /\ ~ lost h n g /\ exists off, xdata (f_entry x) = KUsed off true /\ f_object x = wanted h n g).
Proof.
  intros d h x I Hx Hd n g. destruct (i_dirty _ _ I x Hx Hd) as (R & T). assert (Hc := i_plain _ _ I x Hx). unfold no_comp in Hc.
  destruct (xdata (f_entry x)) as [next|off [|]|? ?] eqn:D.
  - exfalso. apply (resolved_not_free _ _ _ _ next R). unfold shown. rewrite D. exact D.
  - right. assert (NL : ~ lost h n g) by (intros L; destruct (i_live _ _ I n g x R Hx L) as (o' & D'); congruence). split; [exact T|]. split; [exact NL|].
    exists off. split; [reflexivity|]. assert (W := i_wanted _ _ I n g x R Hx NL). unfold held in W. rewrite D in W. exact W.
  - left. exists off. reflexivity.
  - destruct Hc.
Qed.
Lemma dirty_once : forall d h, inv d h -> plain_tables (memory_chain (d_sections d)) -> nothing_deleted (memory_chain (d_sections d)) -> changed_once (d_sections d).
Proof.
  intros d h I Hp Hn c1 s1 c2 i1 x1 i2 Ec Ei D1.
  assert (Eit : items (d_sections d) = (items c1 ++ i1) ++ x1 :: i2 ++ items c2).
  { rewrite Ec, flat_map_app. cbn [flat_map]. rewrite Ei, <- !app_assoc. reflexivity. }
  assert (K := i_keys _ _ I). unfold keys_once in K. rewrite Eit, map_app in K. cbn [map] in K. apply NoDup_remove_2 in K.
  assert (Hx1 : In x1 (items (d_sections d))) by (rewrite Eit; apply in_or_app; right; left; reflexivity).
  assert (G : forall x2, In x2 (i2 ++ items c2) -> f_dirty x2 = true -> xnum (f_entry x2) <> xnum (f_entry x1)).
  { intros x2 Hx2 D2 E. assert (Hi2 : In x2 (items (d_sections d))) by (rewrite Eit; apply in_or_app; right; right; exact Hx2).
    destruct (i_dirty _ _ I x1 Hx1 D1) as (R1 & _). destruct (i_dirty _ _ I x2 Hi2 D2) as (R2 & _). rewrite E in R2.
    assert (Eg := one_generation _ _ _ _ _ _ Hp Hn R1 R2). rewrite <- Eg, R1 in R2. injection R2 as R2. apply K. apply in_or_app. right. rewrite R2. apply (in_map (fun x => key x)). exact Hx2. }
  split.
  - intros x2 Hx2. apply G. apply in_or_app. left. exact Hx2.
  - intros s2 x2 Hs2 Hx2. apply G. apply in_or_app. right. apply in_flat_map. exists s2. auto.
Qed.

Lemma update_written : forall decode rl d0 s0 r0 d h k file', d_sections d0 = s0 :: r0 -> kept d0 d k -> inv d h ->
  writable (ODict (f_trailer s0)) -> (forall v, ~ In (str "XRefStm", v) (f_trailer s0)) -> (0 <= f_offset s0 < 2 ^ 63)%Z ->
  N.of_nat (List.length (items (d_sections d0)) + k) + 1 < 2 ^ 63 ->
  (forall n g, touched h n g -> ~ lost h n g -> n < 2 ^ 63 /\ storable (wanted h n g)) ->
  write_incremental (d_file d) (d_sections d) = Ok file' -> (Z.of_nat (List.length file') < 2 ^ 63)%Z ->
  (exists more, file' = d_file d0 ++ more) /\
  exists offset sec, last_xref_offset file' = Ok offset /\ (forall c, read_section parser_dictionary decode file' c offset = Ok (c, sec)) /\
    (forall n g, touched h n g -> ~ lost h n g -> exists at_ o',
      entry_of sec n {| xnum := n; xgen := g; xdata := KUsed at_ true |} /\
      load_entry parser_dictionary rl file' {| xnum := n; xgen := g; xdata := KUsed at_ true |} = Ok (n, g, o') /\ same_object (wanted h n g) o') /\
    (forall x, In x (s_entries sec) -> xnum x = 0 \/ exists g, touched h (xnum x) g /\ ~ lost h (xnum x) g).
Proof.
  intros decode rl d0 s0 r0 d h k file' E0 K I Ht Hx Hoff Hn Hsv Hw Hfit. assert (Kf := k_first _ _ _ K). rewrite E0 in Kf.
  destruct (d_sections d) as [|s r] eqn:Ed; [destruct Kf|]. destruct Kf as (Ko & Kt).
  assert (Hit : forall s' x, In s' (s :: r) -> In x (f_items s') -> In x (items (d_sections d))).
  { intros s' x A B. rewrite Ed. apply in_flat_map. exists s'. auto. }
  assert (Hcs : changes_saveable entry_saveable storable (s :: r)).
  { intros s' x Hs' Hx' Dx. destruct (dirty_item d h x I (Hit _ _ Hs' Hx') Dx) as [(off & D)|(T & NL & off & D & W)]; rewrite D; [exact Logic.I|].
    destruct (Hsv _ _ T NL) as (B1 & B2). split; [|rewrite W; exact B2]. split; [exact B1|]. split; [|rewrite D; reflexivity].
    assert (P := proj2 (k_plain _ _ _ K) (shown_section s')). rewrite Ed in P. destruct (P (in_map _ _ _ Hs')) as (_ & _ & _ & Q).
    destruct (Q (key x) (in_map (fun x => key x) _ _ Hx')) as (Q1 & _). rewrite shown_gen in Q1. exact Q1. }
  assert (Hone : changed_once (s :: r)). { rewrite <- Ed. apply (dirty_once d h I); [exact (k_plain _ _ _ K)|exact (k_deleted _ _ _ K)]. }
  assert (Ks := k_size _ _ _ K). rewrite Ed in Ks.
  assert (R := Update.incremental_read decode rl (d_file d) s r file' Hcs). rewrite Ko, Kt in R.
  destruct (R Ht Hx Hoff ltac:(clear - Hn Ks; lia) Hw Hfit) as (off & sec & (more & Em) & E1 & E2 & (_ & _ & E3 & E4) & _). clear R.
  split; [exists ([10] ++ more); rewrite <- (k_file _ _ _ K); exact Em|]. exists off, sec. split; [exact E1|]. split; [exact E2|]. split.
  - intros n g T NL. destruct (live_item d h n g I T NL) as (x & o & Hx' & Dx & Ex & Wx).
    assert (Hch : changed_live (s :: r) {| xnum := n; xgen := g; xdata := KUsed o true |} (wanted h n g)).
    { rewrite Ed in Hx'. apply in_flat_map in Hx'. destruct Hx' as (s' & Hs' & Hx'). exists s', o. split; [exact Hs'|]. split; [reflexivity|].
      destruct x as [xe xo xd]. cbn [f_entry f_object f_dirty] in *. subst xe xo xd. exact Hx'. }
    specialize (E4 _ _ (Update.changed_listed _ _ _ Hone Hch)). cbn [xdata xnum xgen] in E4. destruct E4 as (at_ & o' & F1 & _ & F2 & F3). exists at_, o'. auto.
  - intros x Hxs. destruct (proj1 (E3 (xnum x)) (ex_intro _ x (conj Hxs eq_refl))) as (p & Hp & Ep). apply Update.add_all_in in Hp. destruct Hp as [Hp|[<-|[]]].
    + right. unfold Update.changes in Hp. apply in_flat_map in Hp. destruct Hp as (s' & Hs & Hp). apply in_flat_map in Hp. destruct Hp as (y & Hy & Hp).
      unfold Update.change in Hp. destruct (f_dirty y) eqn:Dy; [|destruct Hp]. destruct (dirty_item d h y I (Hit _ _ Hs Hy) Dy) as [(o & D)|(T & NL & o & D & _)]; rewrite D in Hp; [destruct Hp|].
      destruct Hp as [<-|[]]. cbn [fst] in Ep. exists (xgen (f_entry y)). rewrite <- Ep. auto.
    + left. symmetry. exact Ep.
Qed.

(** ** what a full save writes *)
Lemma resembles_same_store : forall real f g f', (forall n k, f n k = g n k) -> forall k a b, resembles real f f' k a b -> resembles real g f' k a b.
Proof.
  intros real f g f' E. induction k as [|k IH]; intros a b H; [exact H|]. cbn [resembles] in *.
  assert (Es : seen_at g a = seen_at f a) by (destruct a; try reflexivity; cbn [seen_at]; symmetry; apply E). rewrite Es. revert H. apply Save.agree_mono. exact IH.
Qed.

(** Lemmas about the objects created by signing. *)
From Coq Require Import String List NArith ZArith Bool Lia.
From Verif.Model Require Import Base Arith Token Buffer Equality PageTree Append SignForm.
From Verif.Spec Require Import Arith SignForm.
From Verif.Proof Require Import Tac.
From Verif.Proof Require Append.
From Verif.Props Require Import Arith.
Import ListNotations.
Local Open Scope N_scope.

(** ** Values *)
Lemma get_map : forall k k0 (F : value -> value) l,
  entry_get k (map (fun e => if bytes_eqb (fst e) k0 then (fst e, F (snd e)) else e) l) =
  if bytes_eqb k0 k then option_map F (entry_get k l) else entry_get k l.
Proof.
  intros k k0 F l. induction l as [|[a v] l IH]; cbn [map entry_get fst snd].
  - destruct (bytes_eqb k0 k); reflexivity.
  - destruct (bytes_eqb a k0) eqn:E; cbn [entry_get fst snd].
    + apply Append.beqb_eq in E. subst a. destruct (bytes_eqb k0 k) eqn:E2; [reflexivity|exact IH].
    + destruct (bytes_eqb a k) eqn:E2; [|exact IH]. apply Append.beqb_eq in E2. subst a. 
      destruct (bytes_eqb k0 k) eqn:E3; [|reflexivity]. apply Append.beqb_eq in E3. subst k0. rewrite Append.beqb_refl in E. discriminate.
Qed.

Lemma get_map_part : forall k k0 t w l,
  entry_get k (map (fun e => if bytes_eqb (fst e) k0 then (fst e, put_part (snd e) t w) else e) l) =
  if bytes_eqb k0 k then option_map (fun x => put_part x t w) (entry_get k l) else entry_get k l.
Proof. intros. apply (get_map k k0 (fun x => put_part x t w) l). Qed.

Definition leaf (v : value) : Prop := match v with VDict _ => False | _ => True end.
Definition sh (x x' : value) : Prop :=
  match x with
  | VDict _ => exists l, x' = VDict l
  | VArr _ => exists l, x' = VArr l
  | VInt _ => exists q, x' = VInt q
  | VReal _ => exists q, x' = VReal q
  | _ => x' = x
  end.
Lemma sh_refl : forall x, sh x x.
Proof. destruct x; cbn [sh]; eauto. Qed.
Lemma sh_trans : forall a b c, sh a b -> sh b c -> sh a c.
Proof. intros a b c H1 H2. destruct a; cbn [sh] in H1; try (subst b; exact H2); destruct H1 as (x & ->); exact H2. Qed.

(** K: keys a dictionary may have gained *)
Definition evol (K : list bytes) (x x' : value) : Prop :=
  sh x x' /\
  forall l, x = VDict l -> exists l', x' = VDict l' /\
    (forall k y, entry_get k l = Some y -> exists y', entry_get k l' = Some y' /\ sh y y') /\
    (forall k, ~ In k K -> entry_get k l = None -> entry_get k l' = None).
Lemma evol_refl : forall K x, evol K x x.
Proof.
  intros K x. split; [apply sh_refl|]. intros l ->. exists l. split; [reflexivity|]. split; [|auto]. intros k y H. exists y. split; [exact H|apply sh_refl].
Qed.
Lemma evol_trans : forall K1 K2 a b c, evol K1 a b -> evol K2 b c -> evol (K1 ++ K2) a c.
Proof.
  intros K1 K2 a b c [S1 H1] [S2 H2]. split; [eapply sh_trans; eassumption|]. intros l ->.
  destruct (H1 l eq_refl) as (l1 & -> & A1 & B1). destruct (H2 l1 eq_refl) as (l2 & -> & A2 & B2). exists l2. split; [reflexivity|]. split.
  - intros k y E. destruct (A1 k y E) as (y1 & E1 & T1). destruct (A2 k y1 E1) as (y2 & E2 & T2). exists y2. split; [exact E2|]. eapply sh_trans; eassumption.
  - intros k N E. apply B2; [intros I; apply N, in_or_app; right; exact I|]. apply B1; [intros I; apply N, in_or_app; left; exact I|exact E].
Qed.

(** the replacements that happen *)
Inductive stepv : list bytes -> value -> value -> Prop :=
| sv_ins : forall k y l, entry_get k l = None -> stepv [k] (VDict l) (VDict ((k, y) :: l))
| sv_arr : forall l l', stepv [] (VArr l) (VArr l')
| sv_int : forall q q', stepv [] (VInt q) (VInt q').
Lemma stepv_evol : forall K u w, stepv K u w -> evol K u w.
Proof.
  intros K u w H. destruct H as [k y l E|l l'|q q']; (split; [cbn [sh]; eauto|]); intros m [= <-].
  exists ((k, y) :: l). split; [reflexivity|]. split.
  - intros k1 y1 E1. exists y1. split; [|apply sh_refl]. cbn [entry_get]. rewrite Append.beqb_neq; [exact E1|]. congruence.
  - intros k1 N1 E1. cbn [entry_get]. rewrite Append.beqb_neq; [exact E1|]. intros ->. apply N1. left. reflexivity.
Qed.

Lemma part_put : forall ks0 K v u w, part v ks0 = Some u -> stepv K u w ->
  forall ks x, part v ks = Some x ->
  exists x', part (put_part v ks0 w) ks = Some x' /\ evol K x x' /\ (ks = ks0 -> x' = w) /\ (ks <> ks0 -> leaf x -> x' = x).
Proof.
  induction ks0 as [|k0 t0 IH]; intros K v u w P0 S ks x P; cbn [part put_part] in *.
  - injection P0 as ->. destruct ks as [|k t].
    + cbn [part] in *. injection P as <-. exists w. split; [reflexivity|]. split; [apply stepv_evol; exact S|]. split; [auto|congruence].
    + exists x. split; [|split; [apply evol_refl|split; [discriminate|reflexivity]]]. destruct S as [k1 y l E|l l'|q q']; cbn [part] in *; try discriminate.
      cbn [entry_get]. destruct (entry_get k l) as [z|] eqn:Ez; [|discriminate]. rewrite Append.beqb_neq by congruence. exact P.
  - destruct v as [| | | | | | | |l| ]; try discriminate. destruct (entry_get k0 l) as [v0|] eqn:E0; [|discriminate].
    destruct ks as [|k t]; cbn [part] in *.
    + injection P as <-. eexists. split; [reflexivity|]. split; [|split; [discriminate|intros _ []]]. split; [cbn [sh]; eauto|]. intros m [= <-]. eexists. split; [reflexivity|]. split.
      * intros k y Ey. rewrite get_map_part. destruct (bytes_eqb k0 k) eqn:Ek.
        -- apply Append.beqb_eq in Ek. subst k. rewrite Ey. cbn [option_map]. eexists. split; [reflexivity|].
           assert (y = v0) by congruence. subst y. destruct (IH K v0 u w P0 S [] v0 eq_refl) as (x' & Ex & [Sx _] & _). injection Ex as Ex. rewrite Ex. exact Sx.
        -- exists y. split; [exact Ey|apply sh_refl].
      * intros k _ Ey. rewrite get_map_part, Ey. destruct (bytes_eqb k0 k); reflexivity.
    + rewrite get_map_part. destruct (entry_get k l) as [z|] eqn:Ez; [|discriminate]. destruct (bytes_eqb k0 k) eqn:Ek.
      * apply Append.beqb_eq in Ek. subst k. assert (z = v0) by congruence. subst z. cbn [option_map].
        destruct (IH K v0 u w P0 S t x P) as (x' & A & B & C & D). exists x'. split; [exact A|]. split; [exact B|]. split; [intros [= ->]; auto|]. intros H. apply D. congruence.
      * exists x. split; [exact P|]. split; [apply evol_refl|]. split; [|reflexivity]. intros [= <- _]. rewrite Append.beqb_refl in Ek. discriminate.
Qed.

(** ** Objects *)
Definition upd (X : list place) (K : list bytes) (h h' : objects) : Prop :=
  forall q x, read h q = Some x -> exists x', read h' q = Some x' /\ evol K x x' /\ (leaf x -> ~ In q X -> x' = x).
Lemma upd_refl : forall X K h, upd X K h h.
Proof. intros X K h q x E. exists x. split; [exact E|]. split; [apply evol_refl|auto]. Qed.
Lemma sh_leaf : forall x x', sh x x' -> leaf x -> leaf x'.
Proof. intros x x' H L. destruct x; cbn [sh leaf] in *; try contradiction; try (subst x'; exact I); destruct H as (y & ->); exact I. Qed.
Lemma upd_trans : forall X1 X2 K1 K2 a b c, upd X1 K1 a b -> upd X2 K2 b c -> upd (X1 ++ X2) (K1 ++ K2) a c.
Proof.
  intros X1 X2 K1 K2 a b c H1 H2 q x E. destruct (H1 q x E) as (x1 & E1 & V1 & L1). destruct (H2 q x1 E1) as (x2 & E2 & V2 & L2).
  exists x2. split; [exact E2|]. split; [eapply evol_trans; eassumption|]. intros L N. assert (x1 = x).
  { apply L1; [exact L|]. intros I. apply N, in_or_app. left. exact I. }
  subst x1. apply L2; [exact L|]. intros I. apply N, in_or_app. right. exact I.
Qed.
Lemma upd_weaken : forall X X' K K' h h', upd X K h h' -> incl X X' -> incl K K' -> upd X' K' h h'.
Proof.
  intros X X' K K' h h' H I1 I2 q x E. destruct (H q x E) as (x' & E' & [V1 V2] & L). exists x'. split; [exact E'|]. split.
  - split; [exact V1|]. intros l El. destruct (V2 l El) as (l' & A & B & C). exists l'. split; [exact A|]. split; [exact B|]. intros k N. apply C. intros I. apply N, I2, I.
  - intros Lx N. apply L; [exact Lx|]. intros I. apply N, I1, I.
Qed.

Lemma put_get : forall h n v m, put_object h n v m = if m =? n then Some v else h m.
Proof. reflexivity. Qed.
Lemma alloc_upd : forall X K h n v, h n = None -> upd X K h (put_object h n v).
Proof.
  intros X K h n v E q x P. exists x. split; [|split; [apply evol_refl|auto]]. unfold read in *. rewrite put_get. destruct (fst q =? n) eqn:Eq; [|exact P].
  apply N.eqb_eq in Eq. rewrite Eq, E in P. discriminate.
Qed.
Lemma write_upd : forall K h p u w, read h p = Some u -> stepv K u w -> upd [p] K h (write h p w).
Proof.
  intros K h p u w P S q x Q. unfold read, write in *. destruct (h (fst p)) as [v|] eqn:Ev; [|discriminate]. rewrite put_get.
  destruct (fst q =? fst p) eqn:Eq.
  - apply N.eqb_eq in Eq. rewrite Eq, Ev in Q. destruct (part_put _ _ _ _ _ P S _ _ Q) as (x' & A & B & C & D). exists x'. split; [exact A|]. split; [exact B|].
    intros L N. apply D; [|exact L]. intros E. apply N. left. destruct p, q; cbn [fst snd] in *; congruence.
  - exists x. split; [exact Q|]. split; [apply evol_refl|auto].
Qed.
Lemma write_read : forall h p u w, read h p = Some u -> read (write h p w) p = Some w.
Proof.
  intros h p u w P. unfold read, write in *. destruct (h (fst p)) as [v|]; [|discriminate]. rewrite put_get, N.eqb_refl.
  revert v P. induction (snd p) as [|k t IH]; intros v P; cbn [part put_part] in *; [reflexivity|].
  destruct v as [| | | | | | | |l| ]; try discriminate. rewrite get_map_part. destruct (entry_get k l) as [z|]; [|discriminate]. rewrite Append.beqb_refl. cbn [option_map]. apply IH. exact P.
Qed.

(** ** Links: the place an entry stands for *)
Definition place_of (p : place) (k : bytes) (u : value) (q : place) : Prop :=
  match u with VRef n g => g = 0 /\ q = (n, []) | _ => q = (fst p, snd p ++ [k]) end.
Definition link (h : objects) (p : place) (k : bytes) (q : place) : Prop :=
  exists l u, read h p = Some (VDict l) /\ entry_get k l = Some u /\ place_of p k u q.
Lemma place_sh : forall p k u u' q, sh u u' -> place_of p k u q -> place_of p k u' q.
Proof. intros p k u u' q S P. destruct u; cbn [sh place_of] in *; try (subst u'; exact P); destruct S as (y & ->); exact P. Qed.
Lemma link_upd : forall X K h h' p k q, upd X K h h' -> link h p k q -> link h' p k q.
Proof.
  intros X K h h' p k q U (l & u & R & G & P). destruct (U p _ R) as (x' & R' & [_ V] & _). destruct (V l eq_refl) as (l' & -> & A & _).
  destruct (A k u G) as (u' & G' & S). exists l', u'. split; [exact R'|]. split; [exact G'|]. eapply place_sh; eassumption.
Qed.
Lemma place_fun : forall p k u q q', place_of p k u q -> place_of p k u q' -> q = q'.
Proof. intros p k u q q' A B. destruct u; cbn [place_of] in *; try congruence. destruct A, B. congruence. Qed.
Lemma link_fun : forall h p k q q', link h p k q -> link h p k q' -> q = q'.
Proof. intros h p k q q' (l & u & R & G & P) (l' & u' & R' & G' & P'). assert (l = l') by congruence. subst l'. assert (u = u') by congruence. subst u'. eapply place_fun; eassumption. Qed.
Lemma part_app : forall ks v l k, part v ks = Some (VDict l) -> part v (ks ++ [k]) = entry_get k l.
Proof.
  induction ks as [|k0 t IH]; intros v l k P; cbn [part app] in *.
  - injection P as ->. destruct (entry_get k l); reflexivity.
  - destruct v as [| | | | | | | |m| ]; try discriminate. destruct (entry_get k0 m) as [z|]; [|discriminate]. apply IH. exact P.
Qed.
Lemma read_app : forall h p l k, read h p = Some (VDict l) -> read h (fst p, snd p ++ [k]) = entry_get k l.
Proof. intros h p l k R. unfold read in *. cbn [fst snd]. destruct (h (fst p)); [|discriminate]. apply part_app. exact R. Qed.
Lemma place_deref : forall h p k u q l, read h p = Some (VDict l) -> entry_get k l = Some u -> place_of p k u q -> deref h u = read h q.
Proof.
  intros h p k u q l R G P. destruct u; cbn [place_of deref] in *; try (subst q; rewrite (read_app _ _ _ _ R), G; reflexivity).
  destruct P as [-> ->]. unfold read. cbn [fst snd part]. destruct (h num); reflexivity.
Qed.
Lemma link_leads : forall h v p k q t, deref h v = read h p -> link h p k q -> exists u, deref h u = read h q /\ leads h v (k :: t) = leads h u t.
Proof.
  intros h v p k q t D (l & u & R & G & P). exists u. split; [eapply place_deref; eassumption|]. cbn [leads]. rewrite D, R, G. reflexivity.
Qed.
Lemma deref_ref : forall h n, deref h (VRef n 0) = read h (n, []).
Proof. intros. cbn [deref]. unfold read. cbn [fst snd part]. destruct (h n); reflexivity. Qed.
Lemma leads1 : forall h n k q, link h (n, []) k q -> leads h (VRef n 0) [k] = read h q.
Proof. intros h n k q L. destruct (link_leads h (VRef n 0) (n, []) k q [] (deref_ref h n) L) as (u & D & E). rewrite E. exact D. Qed.
Lemma leads2 : forall h n k q k2 q2, link h (n, []) k q -> link h q k2 q2 -> leads h (VRef n 0) [k; k2] = read h q2.
Proof.
  intros h n k q k2 q2 L L2. destruct (link_leads h (VRef n 0) (n, []) k q [k2] (deref_ref h n) L) as (u & D & E). rewrite E.
  destruct (link_leads h u q k2 q2 [] D L2) as (u2 & D2 & E2). rewrite E2. exact D2.
Qed.

(** ** What is kept of the objects that were there *)
Lemma repeat_app_eq : forall A (a : A) n m, repeat a n ++ repeat a m = repeat a (n + m).
Proof. intros. induction n; cbn [repeat app Nat.add]; [reflexivity|]. f_equal. exact IHn. Qed.
Lemma bits_refl : forall q, numeric_bits q q.
Proof. intros [z|z|r]; cbn [numeric_bits]; auto. Qed.
Lemma bits_trans : forall a b c, numeric_bits a b -> numeric_bits b c -> numeric_bits a c.
Proof.
  intros [x|x|x] [y|y|y] [z|z|z]; cbn [numeric_bits]; intros H1 H2; try congruence; intros i Hi; rewrite H2, H1 by exact Hi; reflexivity.
Qed.
Lemma keeps_trans : forall f a b c, keeps f a b -> keeps f b c -> keeps f a c.
Proof.
  intros f. fix IH 4. intros a b c H. destruct H as [v|l n|q q' B|q q' B|l l' A1 A2]; intros H2.
  - exact H2.
  - inversion H2; subst; try (constructor; fail). rewrite <- app_assoc, repeat_app_eq. constructor.
  - inversion H2; subst; constructor; [exact B|]. eapply bits_trans; eassumption.
  - inversion H2; subst; constructor; [exact B|]. eapply bits_trans; eassumption.
  - inversion H2 as [v|l0 n|q q' B|q q' B|l0 l2 B1 B2]; subst.
    + constructor; assumption.
    + constructor.
      * intros k N. rewrite B1, A1 by exact N. reflexivity.
      * intros k u I E. destruct (A2 k u I E) as (u1 & E1 & K1). destruct (B2 k u1 I E1) as (u2 & E2 & K2). exists u2. split; [exact E2|]. exact (IH _ _ _ K1 K2).
Qed.
Lemma put_keeps : forall f ks v u w, Forall (fun k => In k form_keys) ks -> part v ks = Some u -> keeps f u w -> keeps f v (put_part v ks w).
Proof.
  intros f. induction ks as [|k t IH]; intros v u w F P H; cbn [part put_part] in *; [injection P as ->; exact H|].
  destruct v as [| | | | | | | |l| ]; try discriminate. destruct (entry_get k l) as [z|] eqn:Ez; [|discriminate]. inversion F as [|a b Fk Ft]; subst. constructor.
  - intros k1 N. rewrite get_map_part. rewrite Append.beqb_neq; [reflexivity|]. intros <-. exact (N Fk).
  - intros k1 u1 I E1. rewrite get_map_part. destruct (bytes_eqb k k1) eqn:Ek.
    + apply Append.beqb_eq in Ek. subst k1. rewrite E1. cbn [option_map]. eexists. split; [reflexivity|]. assert (u1 = z) by congruence. subst u1. eapply IH; eassumption.
    + exists u1. split; [exact E1|constructor].
Qed.

(** everything at once, for the objects of [D] *)
Definition kept_all (D : N -> Prop) (f : N) (h h' : objects) : Prop := forall n v, D n -> h n = Some v -> exists v', h' n = Some v' /\ keeps f v v'.
Lemma kept_refl : forall D f h, kept_all D f h h.
Proof. intros D f h n v _ E. exists v. split; [exact E|constructor]. Qed.
Lemma kept_trans : forall D f a b c, kept_all D f a b -> kept_all D f b c -> kept_all D f a c.
Proof.
  intros D f a b c H1 H2 n v Dn E. destruct (H1 n v Dn E) as (v1 & E1 & K1). destruct (H2 n v1 Dn E1) as (v2 & E2 & K2). exists v2. split; [exact E2|]. eapply keeps_trans; eassumption.
Qed.
Lemma alloc_kept : forall D f h n v, h n = None -> kept_all D f h (put_object h n v).
Proof. intros D f h n v E m x _ Em. exists x. split; [|constructor]. rewrite put_get. destruct (m =? n) eqn:Eq; [|exact Em]. apply N.eqb_eq in Eq. congruence. Qed.
Lemma write_kept : forall (D : N -> Prop) f h p u w, read h p = Some u -> ~ D (fst p) \/ (Forall (fun k => In k form_keys) (snd p) /\ keeps f u w) -> kept_all D f h (write h p w).
Proof.
  intros D f h p u w R C n v Dn E. unfold read, write in *. destruct (h (fst p)) as [v0|] eqn:E0; [|discriminate]. rewrite put_get. destruct (n =? fst p) eqn:Eq.
  - apply N.eqb_eq in Eq. subst n. destruct C as [C|[F Kp]]; [contradiction|]. eexists. split; [reflexivity|]. assert (v = v0) by congruence. subst v. eapply put_keeps; eassumption.
  - exists v. split; [exact E|constructor].
Qed.

(** only some objects are touched *)
Definition framed (T : list N) (h h' : objects) : Prop := forall n, h n <> None -> ~ In n T -> h' n = h n.
Lemma framed_refl : forall T h, framed T h h.
Proof. intros T h n _ _. reflexivity. Qed.
Lemma framed_trans : forall T1 T2 a b c, framed T1 a b -> framed T2 b c -> framed (T1 ++ T2) a c.
Proof.
  intros T1 T2 a b c H1 H2 n E N. assert (E1 : b n = a n) by (apply H1; [exact E|intros I; apply N, in_or_app; left; exact I]).
  rewrite <- E1 in *. apply H2; [exact E|]. intros I. apply N, in_or_app. right. exact I.
Qed.
Lemma alloc_framed : forall h n v, h n = None -> framed [] h (put_object h n v).
Proof. intros h n v E m Em _. rewrite put_get. destruct (m =? n) eqn:Eq; [|reflexivity]. apply N.eqb_eq in Eq. subst m. contradiction. Qed.
Lemma write_framed : forall h p w, framed [fst p] h (write h p w).
Proof.
  intros h p w n E N. unfold write. destruct (h (fst p)); [|reflexivity]. rewrite put_get. destruct (n =? fst p) eqn:Eq; [|reflexivity]. apply N.eqb_eq in Eq. subst n. exfalso. apply N. left. reflexivity.
Qed.

(** ** The actions *)
Lemma bind_ok : forall A B (m : act A) (k : A -> act B) d d' b, bind m k d = (d', Ok b) -> exists d1 a, m d = (d1, Ok a) /\ k a d1 = (d', Ok b).
Proof. intros A B m k d d' b H. unfold bind in H. destruct (m d) as [d1 [a|e| |]] eqn:E; try discriminate. exists d1, a. auto. Qed.
Lemma dict_at_ok : forall p d d' l, dict_at p d = (d', Ok l) -> d' = d /\ read (d_objects d) p = Some (VDict l).
Proof. intros p d d' l H. unfold dict_at, lift in H. destruct (read (d_objects d) p) as [[| | | | | | | |m| ]|]; try discriminate. injection H as <- <-. auto. Qed.
Lemma array_at_ok : forall p d d' l, array_at p d = (d', Ok l) -> d' = d /\ read (d_objects d) p = Some (VArr l).
Proof. intros p d d' l H. unfold array_at, lift in H. destruct (read (d_objects d) p) as [[| | | | | | |m| | ]|]; try discriminate. injection H as <- <-. auto. Qed.
Definition is_put (d d' : doc) (h : objects) : Prop := d_objects d' = h /\ d_root d' = d_root d.
Lemma insert_ok : forall p k w d d' x, insert_entry p k w d = (d', Ok x) -> exists l, read (d_objects d) p = Some (VDict l) /\ entry_get k l = None /\
  is_put d d' (write (d_objects d) p (VDict ((k, w) :: l))).
Proof.
  intros p k w d d' x H. unfold insert_entry in H. apply bind_ok in H. destruct H as (d1 & l & H1 & H2). apply dict_at_ok in H1. destruct H1 as [-> R].
  exists l. split; [exact R|]. unfold has in H2. destruct (entry_get k l); [discriminate|]. split; [reflexivity|]. unfold store in H2. injection H2 as <- _. split; reflexivity.
Qed.
Lemma append_ok : forall p w d d' x, append_value p w d = (d', Ok x) -> exists l, read (d_objects d) p = Some (VArr l) /\ is_put d d' (write (d_objects d) p (VArr (l ++ [w]))).
Proof.
  intros p w d d' x H. unfold append_value in H. apply bind_ok in H. destruct H as (d1 & l & H1 & H2). apply array_at_ok in H1. destruct H1 as [-> R].
  exists l. split; [exact R|]. unfold store in H2. injection H2 as <- _. split; reflexivity.
Qed.
Lemma find_ok : forall p k d d' q, find_entry p k d = (d', Ok q) -> d' = d /\ link (d_objects d) p k q.
Proof.
  intros p k d d' q H. unfold find_entry in H. apply bind_ok in H. destruct H as (d1 & l & H1 & H2). apply dict_at_ok in H1. destruct H1 as [-> R].
  unfold lift in H2. apply pair_equal_spec in H2. destruct H2 as [-> H2]. split; [reflexivity|]. unfold entry_place in H2.
  destruct (entry_get k l) as [u|] eqn:G; [|discriminate]. exists l, u. split; [exact R|]. split; [exact G|].
  destruct u; cbn [place_of]; try (injection H2 as <-; reflexivity). destruct (gen =? 0) eqn:E; [|discriminate]. injection H2 as <-. split; [apply N.eqb_eq; exact E|reflexivity].
Qed.
Lemma ensure_ok : forall p k v d d' q, (forall n g, v <> VRef n g) -> ensure_entry p k v d = (d', Ok q) ->
  link (d_objects d') p k q /\
  ((d' = d) \/
   (exists l, read (d_objects d) p = Some (VDict l) /\ entry_get k l = None /\ is_put d d' (write (d_objects d) p (VDict ((k, v) :: l))) /\
      q = (fst p, snd p ++ [k]) /\ read (d_objects d') q = Some v)).
Proof.
  intros p k v d d' q Hv H. unfold ensure_entry in H. apply bind_ok in H. destruct H as (d1 & l & H1 & H2). apply dict_at_ok in H1. destruct H1 as [-> R].
  apply bind_ok in H2. destruct H2 as (d2 & x & H2 & H3). apply find_ok in H3. destruct H3 as [-> L]. split; [exact L|]. unfold has in H2.
  destruct (entry_get k l) as [u|] eqn:G.
  - left. unfold ret in H2. injection H2 as <- _. reflexivity.
  - right. apply insert_ok in H2. destruct H2 as (l' & R' & G' & E1 & E2). assert (l' = l) by congruence. subst l'. exists l. split; [exact R|]. split; [exact G|]. split; [split; assumption|].
    assert (R2 : read (d_objects d2) p = Some (VDict ((k, v) :: l))) by (rewrite E1; eapply write_read; exact R).
    assert (Eq : q = (fst p, snd p ++ [k])).
    { destruct L as (l2 & u & RL & GL & P). rewrite R2 in RL. injection RL as <-. cbn [entry_get] in GL. rewrite Append.beqb_refl in GL. injection GL as <-. destruct v; cbn [place_of] in P; try exact P. exfalso. eapply Hv. reflexivity. }
    split; [exact Eq|]. rewrite Eq, (read_app _ _ _ _ R2). cbn [entry_get]. rewrite Append.beqb_refl. reflexivity.
Qed.

(** ** Page trees in a larger set of objects *)
Definition node_ext (h h' : pheap) : Prop := forall n v, h n = Some v -> h' n = Some v.
Lemma node_at_ext : forall h h' n v, node_ext h h' -> node_at h n = Ok v -> node_at h' n = Ok v.
Proof. intros h h' n v E H. unfold node_at in *. destruct (h n) as [w|] eqn:G; [|discriminate]. rewrite (E _ _ G). exact H. Qed.
Lemma tree_at_ext : forall h h' n v, node_ext h h' -> tree_at h n = Ok v -> tree_at h' n = Ok v.
Proof. intros h h' n v E H. unfold tree_at in *. destruct (h n) as [w|] eqn:G; [|discriminate]. rewrite (E _ _ G). exact H. Qed.
Lemma has_tree_ext : forall h h' ks b, node_ext h h' -> has_tree_childs h ks = Ok b -> has_tree_childs h' ks = Ok b.
Proof.
  intros h h' ks b E. induction ks as [|k ks IH]; cbn [has_tree_childs]; [auto|]. intros H. apply rbind_ok in H. destruct H as (v & Hv & H).
  rewrite (node_at_ext _ _ _ _ E Hv). cbn [rbind]. destruct (is_tree v); auto.
Qed.
Lemma page_loop_ext : forall rec rec' h h' page, node_ext h h' -> (forall a b c r, rec a b c = Ok r -> rec' a b c = Ok r) ->
  forall ks processed r, page_loop rec h page processed ks = Ok r -> page_loop rec' h' page processed ks = Ok r.
Proof.
  intros rec rec' h h' page E R ks. induction ks as [|k ks IH]; intros processed r H; cbn [page_loop] in *; [discriminate|].
  apply rbind_ok in H. destruct H as (v & Hv & H). rewrite (node_at_ext _ _ _ _ E Hv). cbn [rbind]. destruct v as [par|c kks par|].
  - destruct (negb (processed =? page)); [apply IH; exact H|exact H].
  - apply rbind_ok in H. destruct H as (kc & Hc & H). rewrite Hc. cbn [rbind]. destruct (wadd processed kc <=? page); [apply IH; exact H|].
    apply rbind_ok in H. destruct H as (l & Hl & H). rewrite Hl. cbn [rbind]. apply rbind_ok in H. destruct H as (dp & Hd & H). rewrite (has_tree_ext _ _ _ _ E Hd). cbn [rbind].
    destruct dp; [apply R; exact H|]. apply rbind_ok in H. destruct H as (q & Hq & H). rewrite Hq. cbn [rbind]. apply rbind_ok in H. destruct H as (w & Hw & H).
    rewrite (node_at_ext _ _ _ _ E Hw). exact H.
  - destruct (negb (processed =? page)); [apply IH; exact H|exact H].
Qed.
Lemma page_internal_ext : forall h h', node_ext h h' -> forall fuel n page processed r, page_internal fuel h n page processed = Ok r -> page_internal fuel h' n page processed = Ok r.
Proof.
  intros h h' E. induction fuel as [|f IH]; intros n page processed r H; cbn [page_internal] in *; [discriminate|].
  apply rbind_ok in H. destruct H as (t & Ht & H). rewrite (tree_at_ext _ _ _ _ E Ht). cbn [rbind]. apply rbind_ok in H. destruct H as (ks & Hk & H). rewrite Hk. cbn [rbind].
  eapply page_loop_ext; [exact E|exact IH|exact H].
Qed.
Lemma get_page_ext : forall h h' fuel root i r, node_ext h h' -> get_page fuel h root i = Ok r -> get_page fuel h' root i = Ok r.
Proof. intros h h' fuel root i r E H. unfold get_page in *. destruct (i <? 1); [discriminate|]. eapply page_internal_ext; eassumption. Qed.
Lemma page_count_ext : forall h h' root c, node_ext h h' -> page_count h root = Ok c -> page_count h' root = Ok c.
Proof. intros h h' root c E H. unfold page_count in *. apply rbind_ok in H. destruct H as (t & Ht & H). rewrite (tree_at_ext _ _ _ _ E Ht). exact H. Qed.

Lemma keeps_node : forall f v v', keeps f v v' -> node_of v' = node_of v.
Proof.
  intros f v v' H. destruct H as [v|l n|q q' B|q q' B|l l' A1 A2]; try reflexivity. unfold node_of, parent_entry, count_entry, kids_entry.
  assert (N : forall k, existsb (bytes_eqb k) form_keys = false -> entry_get k l' = entry_get k l).
  { intros k Ek. apply A1. intros I. assert (T : existsb (bytes_eqb k) form_keys = true) by (apply existsb_exists; exists k; split; [exact I|apply Append.beqb_refl]). congruence. }
  rewrite !N by reflexivity. reflexivity.
Qed.
Lemma kept_nodes : forall f h h', kept_all (fun n => h n <> None) f h h' -> node_ext (nodes h) (nodes h').
Proof.
  intros f h h' H n v E. unfold nodes in *. destruct (h n) as [x|] eqn:G; [|discriminate]. destruct (H n x) as (x' & G' & Kp); [congruence|exact G|]. rewrite G'. rewrite (keeps_node _ _ _ Kp). exact E.
Qed.

(** ** Steps *)
Record rel (D : N -> Prop) (f : N) (T : list N) (K : list bytes) (h h' : objects) : Prop := {
  r_upd : exists X, upd X K h h';
  r_kept : kept_all D f h h';
  r_framed : framed T h h'
}.
Lemma rel_refl : forall D f h, rel D f [] [] h h.
Proof. intros. split; [exists []; apply upd_refl|apply kept_refl|apply framed_refl]. Qed.
Lemma rel_trans : forall D f T1 T2 K1 K2 a b c, rel D f T1 K1 a b -> rel D f T2 K2 b c -> rel D f (T1 ++ T2) (K1 ++ K2) a c.
Proof.
  intros D f T1 T2 K1 K2 a b c [[X1 U1] C1 F1] [[X2 U2] C2 F2]. split; [exists (X1 ++ X2); eapply upd_trans; eassumption|eapply kept_trans; eassumption|eapply framed_trans; eassumption].
Qed.
Lemma rel_alloc : forall D f h n v, h n = None -> rel D f [] [] h (put_object h n v).
Proof. intros D f h n v E. split; [exists []; apply alloc_upd; exact E|apply alloc_kept; exact E|apply alloc_framed; exact E]. Qed.
Lemma rel_write : forall (D : N -> Prop) f K h q u w, read h q = Some u -> stepv K u w ->
  ~ D (fst q) \/ (Forall (fun k => In k form_keys) (snd q) /\ keeps f u w) -> rel D f [fst q] K h (write h q w).
Proof. intros D f K h q u w R S C. split; [exists [q]; eapply write_upd; eassumption|eapply write_kept; eassumption|apply write_framed]. Qed.

(** a leaf that a step leaves alone *)
Lemma alloc_stays : forall h n v a x, h n = None -> read h a = Some x -> read (put_object h n v) a = Some x.
Proof. intros h n v a x E R. destruct (alloc_upd [] [] h n v E a x R) as (x' & R' & _ & L). unfold read in *. rewrite put_get. destruct (fst a =? n) eqn:Eq; [|exact R]. apply N.eqb_eq in Eq. rewrite Eq, E in R. discriminate. Qed.
Lemma write_stays : forall K h q u w a x, read h q = Some u -> stepv K u w -> read h a = Some x -> leaf x -> a <> q -> read (write h q w) a = Some x.
Proof.
  intros K h q u w a x R S Ra L N. destruct (write_upd K h q u w R S a x Ra) as (x' & R' & _ & E). rewrite (E L) in R'; [exact R'|]. intros [I|[]]. congruence.
Qed.
Lemma place_sh_back : forall p k u u' q, sh u u' -> place_of p k u' q -> place_of p k u q.
Proof. intros p k u u' q S P. destruct u; cbn [sh place_of] in *; try (subst u'; exact P); destruct S as (y & ->); exact P. Qed.
Lemma link_back : forall X K h h' p k q l0, upd X K h h' -> read h p = Some (VDict l0) -> ~ In k K -> link h' p k q -> exists u0, entry_get k l0 = Some u0 /\ place_of p k u0 q.
Proof.
  intros X K h h' p k q l0 U R N (l & u & R' & G & P). destruct (U p _ R) as (x' & R2 & [_ V] & _). destruct (V l0 eq_refl) as (l' & -> & A & B).
  assert (l' = l) by congruence. subst l'. destruct (entry_get k l0) as [u0|] eqn:G0.
  - exists u0. split; [reflexivity|]. destruct (A k u0 G0) as (u' & Gu & S). assert (u' = u) by congruence. subst u'. eapply place_sh_back; eassumption.
  - rewrite (B k N G0) in G. discriminate.
Qed.
Lemma missing_back : forall X K h h' p k l0 l, upd X K h h' -> read h p = Some (VDict l0) -> read h' p = Some (VDict l) -> entry_get k l = None -> entry_get k l0 = None.
Proof.
  intros X K h h' p k l0 l U R R' G. destruct (U p _ R) as (x' & R2 & [_ V] & _). destruct (V l0 eq_refl) as (l' & -> & A & _).
  assert (l' = l) by congruence. subst l'. destruct (entry_get k l0) as [u0|] eqn:G0; [|reflexivity]. destruct (A k u0 G0) as (u' & Gu & _). congruence.
Qed.
Lemma link_keys : forall h p k q, link h p k q -> In k form_keys -> Forall (fun k => In k form_keys) (snd p) -> Forall (fun k => In k form_keys) (snd q).
Proof.
  intros h p k q (l & u & _ & _ & P) I F. destruct u; cbn [place_of] in P; try (subst q; cbn [snd]; apply Forall_app; split; [exact F|constructor; [exact I|constructor]]).
  destruct P as [_ ->]. constructor.
Qed.
Lemma link_end : forall h p k q, link h p k q -> (exists n, q = (n, []) /\ exists l g, read h p = Some (VDict l) /\ entry_get k l = Some (VRef n g)) \/ q = (fst p, snd p ++ [k]).
Proof.
  intros h p k q (l & u & R & G & P). destruct u; cbn [place_of] in P; try (right; exact P). left. destruct P as [-> ->]. exists num. split; [reflexivity|]. exists l, 0. auto.
Qed.
Lemma keeps_insert : forall f k y l, In k form_keys -> entry_get k l = None -> keeps f (VDict l) (VDict ((k, y) :: l)).
Proof.
  intros f k y l I E. constructor.
  - intros k1 N. cbn [entry_get]. rewrite Append.beqb_neq; [reflexivity|]. intros <-. contradiction.
  - intros k1 u _ E1. exists u. split; [|constructor]. cbn [entry_get]. rewrite Append.beqb_neq by congruence. exact E1.
Qed.
Lemma keeps_append : forall f l, keeps f (VArr l) (VArr (l ++ [VRef f 0])).
Proof. intros f l. exact (k_array f l 1). Qed.

Lemma set_flag_ok : forall p pos d d' x z, read (d_objects d) p = Some (VInt (QSigned z)) -> (- 2 ^ 63 <= z < 2 ^ 63)%Z -> (0 <= pos < 64)%Z ->
  set_flag p pos d = (d', Ok x) -> exists z', is_put d d' (write (d_objects d) p (VInt (QSigned z'))) /\ (- 2 ^ 63 <= z' < 2 ^ 63)%Z /\
    forall i, (0 <= i < 64)%Z -> Z.testbit z' i = if (i =? pos)%Z then true else Z.testbit z i.
Proof.
  intros p pos d d' x z R Hz Hp H. unfold set_flag in H. rewrite R in H. unfold toggled in H. cbn [number_of] in H.
  destruct (C50_set_bit z pos true) as (z' & E & Hr & Hb); [exact Hz|exact Hp|]. rewrite E in H. cbn [rbind] in H. unfold store in H. injection H as <- _.
  exists z'. split; [split; reflexivity|]. split; [exact Hr|]. intros i Hi. specialize (Hb i Hi). unfold is_bit_set in Hb.
  replace ((i <? 0) || (64 <=? i))%Z with false in Hb by lia. rewrite !Arith.bit_set, !negb_involutive in Hb. destruct (i =? pos)%Z; injection Hb as ->; reflexivity.
Qed.
Lemma allocate_ok : forall alloc v d d' n, allocate alloc v d = (d', Ok n) -> alloc (d_objects d) = Ok n /\ is_put d d' (put_object (d_objects d) n v).
Proof. intros alloc v d d' n H. unfold allocate in H. destruct (alloc (d_objects d)) as [m|e| |]; try discriminate. injection H as <- <-. split; [reflexivity|]. split; reflexivity. Qed.

(** ** The run *)
Lemma catalog_some : forall alloc d r l, d_root d = Some r -> read (d_objects d) (r, []) = Some (VDict l) -> catalog alloc d = (d, Ok r).
Proof. intros alloc d r l E R. unfold catalog. rewrite E. unfold bind, dict_at, lift. rewrite R. reflexivity. Qed.
Lemma read_top : forall h n, read h (n, []) = h n.
Proof. intros. unfold read. cbn [fst snd part]. destruct (h n); reflexivity. Qed.
Lemma first_page_some : forall fuel r d t l m c p, d_objects d r = Some (VDict l) -> entry_get (str "Pages") l = Some (VRef t 0) -> d_objects d t = Some (VDict m) ->
  page_count (nodes (d_objects d)) t = Ok c -> 0 < c -> get_page fuel (nodes (d_objects d)) t 1 = Ok p -> first_page fuel r d = (d, Ok p).
Proof.
  intros fuel r d t l m c p Hr Hp Ht Hc Hpos Hg. unfold first_page, find_entry, bind, dict_at, lift. rewrite !read_top, Hr. cbv beta iota. unfold has, entry_place. rewrite Hp. cbn [N.eqb].
  rewrite ?read_top, ?Hr. cbv beta iota. rewrite Hp. change (0 =? 0) with true. cbv iota. rewrite read_top, Ht. cbv beta iota. rewrite Hc. replace (c =? 0) with false by lia. rewrite Hg. reflexivity.
Qed.
Lemma interactive_ok : forall alloc r d d' q, interactive_form alloc r d = (d', Ok q) -> exists l, read (d_objects d) (r, []) = Some (VDict l) /\
  ((d' = d /\ link (d_objects d) (r, []) (str "AcroForm") q /\ exists m, read (d_objects d) q = Some (VDict m)) \/
   (entry_get (str "AcroForm") l = None /\ exists n d1, alloc (d_objects d) = Ok n /\ is_put d d1 (put_object (d_objects d) n (VDict [])) /\ q = (n, []) /\
    exists l1, read (d_objects d1) (r, []) = Some (VDict l1) /\ entry_get (str "AcroForm") l1 = None /\ is_put d1 d' (write (d_objects d1) (r, []) (VDict ((str "AcroForm", VRef n 0) :: l1))))).
Proof.
  intros alloc r d d' q H. unfold interactive_form in H. apply bind_ok in H. destruct H as (d1 & l & H1 & H). apply dict_at_ok in H1. destruct H1 as [-> R]. exists l. split; [exact R|].
  unfold has in H. destruct (entry_get (str "AcroForm") l) as [u|] eqn:G.
  - left. apply bind_ok in H. destruct H as (d2 & q' & H2 & H). apply find_ok in H2. destruct H2 as [-> L]. apply bind_ok in H. destruct H as (d3 & m & H3 & H). apply dict_at_ok in H3. destruct H3 as [-> Rm].
    unfold ret in H. injection H as <- <-. split; [reflexivity|]. split; [exact L|]. exists m. exact Rm.
  - right. split; [reflexivity|]. apply bind_ok in H. destruct H as (d2 & n & H2 & H). apply allocate_ok in H2. destruct H2 as [A P]. apply bind_ok in H. destruct H as (d3 & x & H3 & H). unfold ret in H. injection H as <- <-.
    exists n, d2. split; [exact A|]. split; [exact P|]. split; [reflexivity|]. apply insert_ok in H3. destruct H3 as (l1 & R1 & G1 & P1). exists l1. auto.
Qed.

Record outcome (h0 h : objects) (r p s f : N) (signature : value) : Prop := {
  o_s : h0 s = None; o_f : h0 f = None; o_sf : s <> f;
  o_sig : h s = Some signature;
  o_field : signature_field h f p s;
  o_named : exists l, h f = Some (VDict l) /\ entry_get (str "T") l = Some (VStr false (str "Signature1"));
  o_kept : kept_all (fun n => h0 n <> None) f h0 h;
  o_frame : forall n, h0 n <> None -> ~ involved h0 r p n -> h n = h0 n;
  o_flags : forall i, (0 <= i < 64)%Z -> flag_bit h r i = (i =? 0)%Z || (i =? 1)%Z || flag_bit h0 r i;
  o_apart : ~ shared_array h0 r p -> form_fields h r = form_fields h0 r ++ [VRef f 0] /\ page_annotations h p = page_annotations h0 p ++ [VRef f 0];
  o_shared : shared_array h0 r p -> form_fields h r = form_fields h0 r ++ [VRef f 0; VRef f 0]
}.

Lemma key_in : forall k, existsb (bytes_eqb k) form_keys = true -> In k form_keys.
Proof. intros k H. apply existsb_exists in H. destruct H as (x & I & E). apply Append.beqb_eq in E. subst x. exact I. Qed.
Lemma key_neq : forall a b, bytes_eqb a b = false -> a <> b.
Proof. intros a b H ->. rewrite Append.beqb_refl in H. discriminate. Qed.
Lemma key_notin : forall k K, existsb (bytes_eqb k) K = false -> ~ In k K.
Proof. intros k K H I. assert (T : existsb (bytes_eqb k) K = true) by (apply existsb_exists; exists k; split; [exact I|apply Append.beqb_refl]). congruence. Qed.

(** an entry of a dictionary of the original objects, made sure to be there by a later state *)
Lemma ensure_rel : forall D f p k v d d' q, (forall n g, v <> VRef n g) -> ensure_entry p k v d = (d', Ok q) -> In k form_keys -> Forall (fun k => In k form_keys) (snd p) ->
  d_root d' = d_root d /\ link (d_objects d') p k q /\ rel D f [fst p] [k] (d_objects d) (d_objects d') /\
  (forall a x, read (d_objects d) a = Some x -> leaf x -> read (d_objects d') a = Some x) /\
  ((d' = d) \/ (exists l, read (d_objects d) p = Some (VDict l) /\ entry_get k l = None /\ q = (fst p, snd p ++ [k]) /\ read (d_objects d') q = Some v)).
Proof.
  intros D f p k v d d' q Hv H I F. apply ensure_ok in H; [|exact Hv]. destruct H as [L [->|(l & R & G & [E1 E2] & Eq & Rq)]].
  - split; [reflexivity|]. split; [exact L|]. split; [|split; [auto|left; reflexivity]]. 
    split; [exists []; apply upd_refl|apply kept_refl|apply framed_refl].
  - split; [exact E2|]. split; [exact L|]. assert (S : stepv [k] (VDict l) (VDict ((k, v) :: l))) by (constructor; exact G). split; [|split].
    + rewrite E1. eapply rel_write; [exact R|exact S|]. right. split; [exact F|]. apply keeps_insert; assumption.
    + intros a x Ra Lx. rewrite E1. eapply write_stays; [exact R|exact S|exact Ra|exact Lx|]. intros ->. rewrite R in Ra. injection Ra as <-. exact Lx.
    + right. exists l. auto.
Qed.

Lemma put_ext : forall h n v, h n = None -> node_ext (nodes h) (nodes (put_object h n v)).
Proof.
  intros h n v E m x G. unfold nodes in *. rewrite put_get. destruct (m =? n) eqn:Eq; [|exact G]. apply N.eqb_eq in Eq. subst m. rewrite E in G. discriminate.
Qed.
Lemma put_old : forall h n v m x, h n = None -> h m = Some x -> put_object h n v m = Some x.
Proof. intros h n v m x E G. rewrite put_get. destruct (m =? n) eqn:Eq; [|exact G]. apply N.eqb_eq in Eq. congruence. Qed.
Ltac step H d x Hx := apply bind_ok in H; destruct H as (d & x & Hx & H).

Lemma run_outcome : forall alloc fuel signature d r p d' s f, fresh_numbers alloc -> signable fuel d r p -> sign_objects alloc fuel signature d = (d', Ok (s, f)) ->
  signable fuel d' r p /\ outcome (d_objects d) (d_objects d') r p s f signature.
Proof.
  intros alloc fuel signature d r p d' s f Hfresh (Hroot & (t & lr & m & c & Hr & Hpg & Ht & Hc & Hpos & Hget) & (lp & Hp) & Hann & Hform) H.
  unfold sign_objects in H.
  step H d1 s1 H1. step H d2 r1 H2. step H d3 p1 H3. step H d4 a H4. step H d5 la H5. step H d6 f1 H6. step H d7 x7 H7. step H d8 x8 H8. step H d9 x9 H9. step H d10 x10 H10.
  step H d11 form H11. step H d12 g H12. step H d13 x13 H13. step H d14 x14 H14. step H d15 fs H15. step H d16 x16 H16.
  unfold ret in H. injection H as <- <- <-. rename s1 into s. rename f1 into f.
  apply allocate_ok in H1. destruct H1 as [A1 [E1 Q1]]. apply Hfresh in A1.
  set (h0 := d_objects d) in *.
  set (D := fun n => h0 n <> None).
  assert (O1 : forall n v, h0 n = Some v -> d_objects d1 n = Some v) by (intros n v G; rewrite E1; apply put_old; assumption).
  rewrite (catalog_some alloc d1 r lr) in H2 by (rewrite ?read_top, ?Q1; auto). injection H2 as <- <-.
  rewrite (first_page_some fuel r d1 t lr m c p) in H3; [|apply O1; exact Hr|exact Hpg|apply O1; exact Ht|rewrite E1; eapply page_count_ext; [apply put_ext; exact A1|exact Hc]|exact Hpos|rewrite E1; eapply get_page_ext; [apply put_ext; exact A1|exact Hget]].
  injection H3 as <- <-.
  assert (R1 : rel D f [] [] h0 (d_objects d1)) by (rewrite E1; apply rel_alloc; exact A1).
  assert (NV : forall n g0, VArr [] <> VRef n g0) by discriminate.
  apply (ensure_rel D f) in H4; [|exact NV|apply key_in; reflexivity|constructor]. destruct H4 as (Q4 & L4 & R4 & St4 & C4).
  apply array_at_ok in H5. destruct H5 as [-> Ra4].
  apply allocate_ok in H6. destruct H6 as [A6 [E6 Q6]]. apply Hfresh in A6.
  assert (R6 : rel D f [] [] (d_objects d4) (d_objects d6)) by (rewrite E6; apply rel_alloc; exact A6).
  (* the new field is no old object *)
  assert (U14 : rel D f ([] ++ [p]) ([] ++ [str "Annots"]) h0 (d_objects d4)) by (eapply rel_trans; [exact R1|exact R4]).
  assert (NF : h0 f = None).
  { destruct (h0 f) as [v|] eqn:G; [|reflexivity]. destruct U14 as [[X U] _ _]. destruct (U (f, []) v) as (x' & G' & _); [rewrite read_top; exact G|]. rewrite read_top, A6 in G'. discriminate. }
  assert (SF : s <> f).
  { intros ->. destruct R4 as [[X U] _ _]. destruct (U (f, []) signature) as (x' & G' & _).
    - rewrite read_top, E1, put_get, N.eqb_refl. reflexivity.
    - rewrite read_top, A6 in G'. discriminate. }
  (* the annotation is appended *)
  apply append_ok in H7. destruct H7 as (la' & Ra6 & E7 & Q7).
  assert (la' = la).
  { assert (T : read (d_objects d6) a = Some (VArr la)) by (rewrite E6; apply alloc_stays; assumption). congruence. }
  subst la'.
  assert (KA : Forall (fun k => In k form_keys) (snd a)) by (eapply link_keys; [exact L4|apply key_in; reflexivity|constructor]).
  assert (R7 : rel D f [fst a] [] (d_objects d6) (d_objects d7)).
  { rewrite E7. eapply rel_write; [exact Ra6|constructor|]. right. split; [exact KA|apply keeps_append]. }
  (* the entries of the field *)
  assert (ND : ~ D f) by (unfold D; intros T; apply T; exact NF).
  assert (F6 : read (d_objects d6) (f, []) = Some (annotation p)) by (rewrite read_top, E6, put_get, N.eqb_refl; reflexivity).
  assert (F7 : read (d_objects d7) (f, []) = Some (annotation p)).
  { assert (Na : fst a <> f).
    { intros Ea. unfold read in Ra4. rewrite Ea, A6 in Ra4. discriminate. }
    rewrite read_top, E7. unfold write. destruct (d_objects d6 (fst a)); [rewrite put_get; replace (f =? fst a) with false by (symmetry; apply N.eqb_neq; congruence)|]; rewrite read_top in F6; exact F6. }
  apply insert_ok in H8. destruct H8 as (l8 & I8 & G8 & E8 & Q8). rewrite F7 in I8. unfold annotation in I8. injection I8 as <-.
  match type of E8 with _ = write _ _ ?w => set (w8 := w) in * end.
  assert (F8 : read (d_objects d8) (f, []) = Some w8) by (rewrite E8; eapply write_read; exact F7).
  apply insert_ok in H9. destruct H9 as (l9 & I9 & G9 & E9 & Q9). rewrite F8 in I9. unfold w8 in I9. injection I9 as <-.
  match type of E9 with _ = write _ _ ?w => set (w9 := w) in * end.
  assert (F9 : read (d_objects d9) (f, []) = Some w9) by (rewrite E9; eapply write_read; exact F8).
  apply insert_ok in H10. destruct H10 as (l10 & I10 & G10 & E10 & Q10). rewrite F9 in I10. unfold w9 in I10. injection I10 as <-.
  match type of E10 with _ = write _ _ ?w => set (w10 := w) in * end.
  assert (F10 : read (d_objects d10) (f, []) = Some w10) by (rewrite E10; eapply write_read; exact F9).
  assert (R8 : rel D f [f] [str "FT"] (d_objects d7) (d_objects d8)) by (rewrite E8; eapply (rel_write D f _ _ (f, [])); [exact F7|constructor; exact G8|left; exact ND]).
  assert (R9 : rel D f [f] [str "T"] (d_objects d8) (d_objects d9)) by (rewrite E9; eapply (rel_write D f _ _ (f, [])); [exact F8|constructor; exact G9|left; exact ND]).
  assert (R10 : rel D f [f] [str "V"] (d_objects d9) (d_objects d10)) by (rewrite E10; eapply (rel_write D f _ _ (f, [])); [exact F9|constructor; exact G10|left; exact ND]).
  assert (W8 : forall b x, read (d_objects d7) b = Some x -> leaf x -> read (d_objects d10) b = Some x).
  { intros b x Rb Lx.
    assert (B7 : b <> (f, [])) by (intros ->; rewrite F7 in Rb; injection Rb as <-; exact Lx).
    rewrite E10. eapply write_stays; [exact F9|constructor; exact G10| |exact Lx|exact B7].
    rewrite E9. eapply write_stays; [exact F8|constructor; exact G9| |exact Lx|exact B7].
    rewrite E8. eapply write_stays; [exact F7|constructor; exact G8|exact Rb|exact Lx|exact B7]. }
  assert (Ra7 : read (d_objects d7) a = Some (VArr (la ++ [VRef f 0]))) by (rewrite E7; eapply write_read; exact Ra6).
  assert (Ra10 := W8 _ _ Ra7 I).
  assert (U10 : rel D f (([p] ++ [] ++ [fst a]) ++ [f] ++ [f] ++ [f]) ((([str "Annots"] ++ [] ++ [])) ++ [str "FT"] ++ [str "T"] ++ [str "V"]) h0 (d_objects d10)).
  { eapply rel_trans; [eapply rel_trans; [exact U14|eapply rel_trans; [exact R6|exact R7]]|]. eapply rel_trans; [exact R8|]. eapply rel_trans; [exact R9|exact R10]. }
  assert (U1_10 := rel_trans _ _ _ _ _ _ _ _ _ R4 (rel_trans _ _ _ _ _ _ _ _ _ R6 (rel_trans _ _ _ _ _ _ _ _ _ R7 (rel_trans _ _ _ _ _ _ _ _ _ R8 (rel_trans _ _ _ _ _ _ _ _ _ R9 R10))))). cbn [app fst] in U1_10.
  (* the form *)
  assert (Rr0 : read h0 (r, []) = Some (VDict lr)) by (rewrite read_top; exact Hr).
  assert (NK10 : ~ In (str "AcroForm") ((([str "Annots"] ++ [] ++ [])) ++ [str "FT"] ++ [str "T"] ++ [str "V"])) by (apply key_notin; reflexivity).
  assert (F11 : d_root d11 = d_root d10 /\ link (d_objects d11) (r, []) (str "AcroForm") form /\ rel D f [r] [str "AcroForm"] (d_objects d10) (d_objects d11) /\
    (forall b x, read (d_objects d10) b = Some x -> leaf x -> read (d_objects d11) b = Some x) /\
    ((exists u0 mo, entry_get (str "AcroForm") lr = Some u0 /\ place_of (r, []) (str "AcroForm") u0 form /\ read h0 form = Some (VDict mo) /\ deref h0 u0 = Some (VDict mo) /\
        entry_if_any h0 (VDict mo) (str "SigFlags") (fun x => exists z, x = VInt (QSigned z) /\ (- 2 ^ 63 <= z < 2 ^ 63)%Z) /\
        entry_if_any h0 (VDict mo) (str "Fields") (fun x => exists a, x = VArr a)) \/
     (entry_get (str "AcroForm") lr = None /\ read (d_objects d11) form = Some (VDict []) /\ h0 (fst form) = None /\ fst form <> f /\ fst form <> s))).
  { apply interactive_ok in H11. destruct H11 as (l11 & Rl11 & [(-> & L & (mf & Rmf))|(Gn & n & d11a & A11 & [E11a Q11a] & -> & (l11a & Rl & Gl & E11 & Q11))]).
    - split; [reflexivity|]. split; [exact L|]. split; [split; [exists []; apply upd_refl|apply kept_refl|apply framed_refl]|]. split; [auto|]. left.
      destruct U10 as [[X U] _ _]. destruct (link_back _ _ _ _ _ _ _ _ U Rr0 NK10 L) as (u0 & G0 & P0). exists u0.
      destruct (Hform lr u0 Hr G0) as (_ & w & Dw & (mo & -> & Hs & Hf)). exists mo. split; [exact G0|]. split; [exact P0|].
      split; [rewrite <- Dw; symmetry; eapply place_deref; [exact Rr0|exact G0|exact P0]|]. split; [exact Dw|]. split; assumption.
    - apply Hfresh in A11. split; [congruence|].
      assert (S : stepv [str "AcroForm"] (VDict l11a) (VDict ((str "AcroForm", VRef n 0) :: l11a))) by (constructor; exact Gl).
      assert (R' : rel D f ([] ++ [r]) ([] ++ [str "AcroForm"]) (d_objects d10) (d_objects d11)).
      { assert (Rn : rel D f [] [] (d_objects d10) (d_objects d11a)) by (rewrite E11a; apply rel_alloc; exact A11). eapply rel_trans; [exact Rn|]. rewrite E11. eapply (rel_write D f _ _ (r, [])); [exact Rl|exact S|]. right. split; [constructor|]. apply keeps_insert; [apply key_in; reflexivity|exact Gl]. }
      assert (Rr : read (d_objects d11) (r, []) = Some (VDict ((str "AcroForm", VRef n 0) :: l11a))) by (rewrite E11; eapply write_read; exact Rl).
      split; [|split; [exact R'|split]].
      + eexists _, _. split; [exact Rr|]. split; [cbn [entry_get]; rewrite Append.beqb_refl; reflexivity|]. cbn [place_of]. split; reflexivity.
      + intros b x Rb Lx. rewrite E11. eapply write_stays; [exact Rl|exact S|rewrite E11a; apply alloc_stays; assumption|exact Lx|].
        intros ->. rewrite Rl11 in Rb. injection Rb as <-. exact Lx.
      + right. destruct U10 as [[X U] _ _]. split; [eapply missing_back; [exact U|exact Rr0|exact Rl11|exact Gn]|].
        assert (Nr : r <> n).
        { intros ->. rewrite read_top, A11 in Rl11. discriminate. }
        split; [|split; [|split]].
        * rewrite read_top, E11. unfold write. cbn [fst snd put_part]. destruct (d_objects d11a r); [rewrite put_get; replace (n =? r) with false by (symmetry; apply N.eqb_neq; congruence)|]; rewrite E11a, put_get, N.eqb_refl; reflexivity.
        * cbn [fst]. destruct (h0 n) as [v|] eqn:G; [|reflexivity]. destruct (U (n, []) v) as (x' & G' & _); [rewrite read_top; exact G|]. rewrite read_top, A11 in G'. discriminate.
        * cbn [fst]. intros ->. rewrite read_top, A11 in F10. discriminate.
        * cbn [fst]. intros ->. destruct U1_10 as [[X1 U1] _ _]. destruct (U1 (s, []) signature) as (x' & G' & _); [rewrite read_top, E1, put_get, N.eqb_refl; reflexivity|]. rewrite read_top, A11 in G'. discriminate. }
  destruct F11 as (Q11 & L11 & R11 & W11 & CF).
  assert (KF : Forall (fun k => In k form_keys) (snd form)) by (eapply link_keys; [exact L11|apply key_in; reflexivity|constructor]).
  assert (U11 := rel_trans _ _ _ _ _ _ _ _ _ U10 R11). cbn [app] in U11.
  (* leaves that stay until the form is there *)
  assert (W : forall b x, read h0 b = Some x -> leaf x -> b <> a -> read (d_objects d11) b = Some x).
  { intros b x Rb Lx Nb. apply W11; [|exact Lx]. apply W8; [|exact Lx]. rewrite E7. eapply write_stays; [exact Ra6|constructor| |exact Lx|exact Nb].
    rewrite E6. apply alloc_stays; [exact A6|]. apply St4; [|exact Lx]. rewrite E1. apply alloc_stays; assumption. }
  assert (Ra11 := W11 _ _ Ra10 I).
  (* the flags *)
  assert (NI : forall n g0, VInt (QSigned 0) <> VRef n g0) by discriminate.
  apply (ensure_rel D f) in H12; [|exact NI|apply key_in; reflexivity|exact KF]. destruct H12 as (Q12 & L12 & R12 & St12 & C12).
  assert (Z12 : exists z, read (d_objects d12) g = Some (VInt (QSigned z)) /\ (- 2 ^ 63 <= z < 2 ^ 63)%Z /\ forall i, flag_bit h0 r i = Z.testbit z i).
  { destruct CF as [(u0 & mo & G0 & P0 & Rmo & Dmo & Hs & Hf)|(G0 & Rn & N0 & Nf & Ns)].
    - assert (L0 : link h0 (r, []) (str "AcroForm") form) by (exists lr, u0; auto).
      destruct C12 as [->|(l & Rl & Gl & Eg & Rg)].
      + destruct U11 as [[X U] _ _]. assert (NK : ~ In (str "SigFlags") [str "Annots"; str "FT"; str "T"; str "V"; str "AcroForm"]) by (apply key_notin; reflexivity).
        destruct (link_back _ _ _ _ _ _ _ _ U Rmo NK L12) as (u & Gu & Pu).
        destruct (Hs mo u eq_refl Gu) as (_ & w & Dw & (z & -> & Hz)). exists z. assert (Rg0 : read h0 g = Some (VInt (QSigned z))) by (rewrite <- Dw; symmetry; eapply place_deref; [exact Rmo|exact Gu|exact Pu]).
        split; [|split; [exact Hz|]].
        * apply W; [exact Rg0|exact I|]. intros ->.
          destruct (U _ _ Rg0) as (x' & Rx & [Sx _] & _). cbn [sh] in Sx. destruct Sx as (q & ->). congruence.
        * intros i. unfold flag_bit. rewrite (leads2 h0 r _ form _ g L0); [|exists mo, u; auto]. rewrite Rg0. reflexivity.
      + exists 0%Z. split; [exact Rg|]. split; [split; [discriminate|reflexivity]|]. intros i. rewrite Z.testbit_0_l. unfold flag_bit.
        destruct U11 as [[X U] _ _]. assert (Gm := missing_back _ _ _ _ _ _ _ _ U Rmo Rl Gl).
        destruct (link_leads h0 (VRef r 0) (r, []) (str "AcroForm") form [str "SigFlags"] (deref_ref h0 r) L0) as (u & Du & Eu). rewrite Eu. cbn [leads]. rewrite Du, Rmo, Gm. reflexivity.
    - destruct C12 as [->|(l & Rl & Gl & Eg & Rg)].
      + destruct L12 as (l & u & Rl & Gu & _). rewrite Rn in Rl. injection Rl as <-. discriminate Gu.
      + exists 0%Z. split; [exact Rg|]. split; [split; [discriminate|reflexivity]|]. intros i. rewrite Z.testbit_0_l. unfold flag_bit. cbn [leads deref]. rewrite Hr, G0. reflexivity. }
  destruct Z12 as (z & Rg12 & Hz & Bz).
  apply (set_flag_ok _ _ _ _ _ z) in H13; [|exact Rg12|exact Hz|lia]. destruct H13 as (z1 & [E13 Q13] & Hz1 & Bz1).
  assert (Rg13 : read (d_objects d13) g = Some (VInt (QSigned z1))) by (rewrite E13; eapply write_read; exact Rg12).
  apply (set_flag_ok _ _ _ _ _ z1) in H14; [|exact Rg13|exact Hz1|lia]. destruct H14 as (z2 & [E14 Q14] & Hz2 & Bz2).
  assert (Rg14 : read (d_objects d14) g = Some (VInt (QSigned z2))) by (rewrite E14; eapply write_read; exact Rg13).
  assert (KG : Forall (fun k => In k form_keys) (snd g)) by (eapply link_keys; [exact L12|apply key_in; reflexivity|exact KF]).
  assert (R13 : rel D f [fst g] [] (d_objects d12) (d_objects d13)).
  { rewrite E13. eapply rel_write; [exact Rg12|constructor|]. right. split; [exact KG|]. constructor. cbn [numeric_bits]. intros i Hi. rewrite Bz1 by lia. replace (i =? 0)%Z with false by lia. reflexivity. }
  assert (R14 : rel D f [fst g] [] (d_objects d13) (d_objects d14)).
  { rewrite E14. eapply rel_write; [exact Rg13|constructor|]. right. split; [exact KG|]. constructor. cbn [numeric_bits]. intros i Hi. rewrite Bz2 by lia. replace (i =? 1)%Z with false by lia. reflexivity. }
  assert (W14 : forall b x, read (d_objects d11) b = Some x -> leaf x -> b <> g -> read (d_objects d14) b = Some x).
  { intros b x Rb Lx Nb. rewrite E14. eapply write_stays; [exact Rg13|constructor| |exact Lx|exact Nb]. rewrite E13. eapply write_stays; [exact Rg12|constructor| |exact Lx|exact Nb]. apply St12; assumption. }
  assert (U14' := rel_trans _ _ _ _ _ _ _ _ _ U11 (rel_trans _ _ _ _ _ _ _ _ _ R12 (rel_trans _ _ _ _ _ _ _ _ _ R13 R14))). cbn [app] in U14'.
  assert (Nag : a <> g).
  { intros ->. assert (T := St12 _ _ Ra11 I). congruence. }
  assert (Ra14 := W14 _ _ Ra11 I Nag).
  (* the fields *)
  apply (ensure_rel D f) in H15; [|exact NV|apply key_in; reflexivity|exact KF]. destruct H15 as (Q15 & L15 & R15 & St15 & C15).
  apply append_ok in H16. destruct H16 as (lf & Rf15 & E16 & Q16).
  assert (KS : Forall (fun k => In k form_keys) (snd fs)) by (eapply link_keys; [exact L15|apply key_in; reflexivity|exact KF]).
  assert (R16 : rel D f [fst fs] [] (d_objects d15) (d_objects d16)).
  { rewrite E16. eapply rel_write; [exact Rf15|constructor|]. right. split; [exact KS|apply keeps_append]. }
  assert (Rf16 : read (d_objects d16) fs = Some (VArr (lf ++ [VRef f 0]))) by (rewrite E16; eapply write_read; exact Rf15).
  assert (Ra15 := St15 _ _ Ra14 I).
  assert (U16 := rel_trans _ _ _ _ _ _ _ _ _ U14' (rel_trans _ _ _ _ _ _ _ _ _ R15 R16)). cbn [app] in U16.
  (* what was there before: the annotations *)
  assert (Rp0 : read h0 (p, []) = Some (VDict lp)) by (rewrite read_top; exact Hp).
  assert (BA : page_annotations h0 p = la /\ h0 (fst a) <> None /\ involved h0 r p (fst a) /\
    ((exists n, a = (n, []) /\ entry_get (str "Annots") lp = Some (VRef n 0)) \/ a = (p, [str "Annots"]))).
  { destruct C4 as [->|(l & Rl & Gl & Ea & Rq)].
    - destruct R1 as [[X U] _ _]. destruct (link_back _ _ _ _ _ _ _ _ U Rp0 (fun x => x) L4) as (u0 & G0 & P0).
      destruct (Hann lp u0 Hp G0) as (Hg & w & Dw & (l & ->)).
      assert (Ra0 : read h0 a = Some (VArr l)) by (rewrite <- Dw; symmetry; eapply place_deref; [exact Rp0|exact G0|exact P0]).
      assert (Ra1 : read (d_objects d1) a = Some (VArr l)) by (rewrite E1; apply alloc_stays; assumption).
      assert (l = la) by congruence. subst l. split; [|split; [|split]].
      + unfold page_annotations, listed. rewrite (leads1 h0 p _ a), Ra0; [reflexivity|]. exists lp, u0. auto.
      + intros T. unfold read in Ra0. rewrite T in Ra0. discriminate.
      + destruct u0; cbn [place_of] in P0; try (subst a; cbn [fst]; right; left; reflexivity). destruct P0 as [-> ->]. right. right. left. exists lp, 0. auto.
      + destruct u0; cbn [place_of] in P0; try (subst a; right; reflexivity). destruct P0 as [-> ->]. left. exists num. auto.
    - cbn [fst snd app] in Ea. rewrite Ra4 in Rq. injection Rq as ->. subst a. split; [|split; [|split]].
      + unfold page_annotations, listed. cbn [leads deref]. rewrite Hp. rewrite read_top, (O1 _ _ Hp) in Rl. injection Rl as <-. rewrite Gl. reflexivity.
      + cbn [fst]. congruence.
      + cbn [fst]. right. left. reflexivity.
      + right. reflexivity. }
  destruct BA as (BA & OA & IA & EA).
  (* the form, the flags and the fields *)
  assert (IF : (h0 (fst form) <> None /\ involved h0 r p (fst form)) \/ (h0 (fst form) = None /\ fst form <> f /\ fst form <> s)).
  { destruct CF as [(u0 & mo & G0 & P0 & Rmo & Dmo & Hs & Hf)|(G0 & Rn & N0 & Nf & Ns)]; [left|right; auto]. split; [intros T; unfold read in Rmo; rewrite T in Rmo; discriminate|].
    destruct u0; cbn [place_of] in P0; try (subst form; left; reflexivity). destruct P0 as [-> ->]. right. right. right. left. exists lr, 0. auto. }
  assert (PF : forall k q X K h u mo, (k = str "Fields" \/ k = str "SigFlags") -> upd X K h0 h -> read h0 form = Some (VDict mo) -> leads h0 (VRef r 0) [str "AcroForm"] = Some (VDict mo) ->
      entry_get k mo = Some u -> place_of form k u q -> fst q = fst form \/ involved h0 r p (fst q)).
  { intros k q X K h u mo Hk _ Rmo Lmo Gu Pu. destruct u; cbn [place_of] in Pu; try (left; subst q; reflexivity). destruct Pu as [-> ->]. right. right. right. right. right. exists mo, 0, k. auto. }
  assert (BG : (h0 (fst g) <> None /\ involved h0 r p (fst g)) \/ fst g = fst form).
  { destruct C12 as [->|(l & Rl & Gl & Eg & Rg)]; [|right; subst g; reflexivity].
    destruct CF as [(u0 & mo & G0 & P0 & Rmo & Dmo & Hs & Hf)|(G0 & Rn & N0 & Nf & Ns)].
    - assert (L0 : link h0 (r, []) (str "AcroForm") form) by (exists lr, u0; auto).
      destruct U11 as [[X U] _ _]. assert (NK : ~ In (str "SigFlags") [str "Annots"; str "FT"; str "T"; str "V"; str "AcroForm"]) by (apply key_notin; reflexivity).
      destruct (link_back _ _ _ _ _ _ _ _ U Rmo NK L12) as (u & Gu & Pu). destruct (Hs mo u eq_refl Gu) as (_ & w & Dw & (z' & -> & Hz')).
      destruct (PF _ _ _ _ _ _ _ (or_intror eq_refl) U Rmo (eq_trans (leads1 _ _ _ _ L0) Rmo) Gu Pu) as [T|T]; [right; exact T|left; split; [|exact T]].
      assert (Rg0 : read h0 g = Some (VInt (QSigned z'))) by (rewrite <- Dw; symmetry; eapply place_deref; [exact Rmo|exact Gu|exact Pu]).
      intros T2. unfold read in Rg0. rewrite T2 in Rg0. discriminate.
    - destruct L12 as (l & u & Rl & Gu & _). rewrite Rn in Rl. injection Rl as <-. discriminate Gu. }
  assert (Ngf : forall l, read (d_objects d12) fs = Some (VArr l) -> fs <> g) by (intros l T ->; congruence).
  assert (BF : ((h0 (fst fs) <> None /\ involved h0 r p (fst fs)) \/ fst fs = fst form) /\
    ((fs <> a /\ form_fields h0 r = lf /\ ~ shared_array h0 r p) \/ (fs = a /\ form_fields h0 r = la /\ lf = la ++ [VRef f 0] /\ shared_array h0 r p))).
  { destruct CF as [(u0 & mo & G0 & P0 & Rmo & Dmo & Hs & Hf)|(G0 & Rn & N0 & Nf & Ns)].
    - assert (L0 : link h0 (r, []) (str "AcroForm") form) by (exists lr, u0; auto). assert (Lmo := eq_trans (leads1 _ _ _ _ L0) Rmo).
      destruct C15 as [->|(l & Rl & Gl & Ef & Rq)].
      + destruct U14' as [[X U] _ _]. assert (NK : ~ In (str "Fields") [str "Annots"; str "FT"; str "T"; str "V"; str "AcroForm"; str "SigFlags"]) by (apply key_notin; reflexivity).
        destruct (link_back _ _ _ _ _ _ _ _ U Rmo NK L15) as (u & Gu & Pu). destruct (Hf mo u eq_refl Gu) as (Hg0 & w & Dw & (lf0 & ->)).
        assert (Rf0 : read h0 fs = Some (VArr lf0)) by (rewrite <- Dw; symmetry; eapply place_deref; [exact Rmo|exact Gu|exact Pu]).
        split.
        * destruct (PF _ _ _ _ _ _ _ (or_introl eq_refl) U Rmo Lmo Gu Pu) as [T|T]; [right; exact T|left; split; [|exact T]]. intros T2. unfold read in Rf0. rewrite T2 in Rf0. discriminate.
        * assert (FF : form_fields h0 r = lf0) by (unfold form_fields, listed; rewrite (leads2 h0 r _ form _ fs L0), Rf0; [reflexivity|exists mo, u; auto]).
          assert (Dec : fs = a \/ fs <> a).
          { destruct (N.eq_dec (fst fs) (fst a)) as [T1|T1]; [|right; congruence]. destruct (list_eq_dec (list_eq_dec N.eq_dec) (snd fs) (snd a)) as [T2|T2]; [left|right; congruence]. destruct fs, a; cbn [fst snd] in *; congruence. }
          destruct Dec as [->|Nfa].
          -- right. split; [reflexivity|]. assert (T1 : read (d_objects d1) a = Some (VArr lf0)) by (rewrite E1; apply alloc_stays; assumption). assert (T4 := St4 _ _ T1 I).
             assert (Ela : lf0 = la) by congruence. split; [congruence|]. split; [congruence|].
             destruct EA as [(n & -> & Gn)| ->].
             ++ destruct u; cbn [place_of] in Pu; try (exfalso; apply (f_equal snd) in Pu; cbn [snd] in Pu; destruct (snd form); discriminate Pu). destruct Pu as [-> Pu]. injection Pu as <-.
                exists n, 0, 0, lp, mo. auto.
             ++ destruct u; cbn [place_of] in Pu; try (exfalso; apply (f_equal snd) in Pu; cbn [snd] in Pu; apply (f_equal (fun x => last x [])) in Pu; rewrite last_last in Pu; revert Pu; apply key_neq; reflexivity).
                destruct Pu as [_ Pu]. discriminate Pu.
          -- left. split; [exact Nfa|]. assert (T11 := W _ _ Rf0 I Nfa). assert (T12 := St12 _ _ T11 I). assert (T14 := W14 _ _ T11 I (Ngf _ T12)). split; [congruence|].
             intros (n & g1 & g2 & l & m' & Hl & Gl & Lm & Gm). apply Nfa. assert (l = lp) by congruence. subst l. rewrite Lmo in Lm. injection Lm as <-.
             destruct (Hann lp _ Hp Gl) as (Hg1 & _). specialize (Hg1 _ _ eq_refl). subst g1. destruct (Hf mo _ eq_refl Gm) as (Hg2 & _). specialize (Hg2 _ _ eq_refl). subst g2.
             assert (u = VRef n 0) by congruence. subst u. destruct Pu as [_ ->].
             destruct EA as [(n' & -> & Gn)|Ea]; [congruence|]. exfalso. subst a.
             destruct C4 as [T|(l & Rl & G2 & _)].
             { subst d4. destruct R1 as [[X1 U1] _ _]. destruct (link_back _ _ _ _ _ _ _ _ U1 Rp0 (fun x => x) L4) as (u1 & G1 & P1). assert (u1 = VRef n 0) by congruence. subst u1. destruct P1 as [_ P1]. discriminate P1. }
             { rewrite read_top, (O1 _ _ Hp) in Rl. injection Rl as <-. congruence. }
      + assert (lf = []) by congruence. subst lf. split; [right; subst fs; reflexivity|]. left.
        destruct U14' as [[X U] _ _]. assert (Gm := missing_back _ _ _ _ _ _ _ _ U Rmo Rl Gl). split; [|split].
        * subst fs. destruct EA as [(n & -> & _)| ->]; intros T; apply (f_equal snd) in T; cbn [snd] in T.
          -- destruct (snd form); discriminate T.
          -- apply (f_equal (fun x => last x [])) in T. rewrite last_last in T. revert T. apply key_neq. reflexivity.
        * unfold form_fields, listed. destruct (link_leads h0 (VRef r 0) (r, []) (str "AcroForm") form [str "Fields"] (deref_ref h0 r) L0) as (u & Du & Eu). rewrite Eu. cbn [leads]. rewrite Du, Rmo, Gm. reflexivity.
        * intros (n & g1 & g2 & l' & m' & Hl & Gl' & Lm & Gm'). rewrite Lmo in Lm. injection Lm as <-. congruence.
    - assert (NS : ~ shared_array h0 r p).
      { intros (n & g1 & g2 & l' & m' & Hl & Gl' & Lm & Gm'). cbn [leads deref] in Lm. rewrite Hr, G0 in Lm. discriminate. }
      assert (FF : form_fields h0 r = []) by (unfold form_fields, listed; cbn [leads deref]; rewrite Hr, G0; reflexivity).
      assert (U11_14 := rel_trans _ _ _ _ _ _ _ _ _ R12 (rel_trans _ _ _ _ _ _ _ _ _ R13 R14)). cbn [app] in U11_14. destruct U11_14 as [[X U] _ _].
      destruct C15 as [->|(l & Rl & Gl & Ef & Rq)].
      + assert (NK : ~ In (str "Fields") [str "SigFlags"]) by (apply key_notin; reflexivity). destruct (link_back _ _ _ _ _ _ _ _ U Rn NK L15) as (u & Gu & _). discriminate Gu.
      + assert (lf = []) by congruence. subst lf. split; [right; subst fs; reflexivity|]. left. split; [|split; [exact FF|exact NS]].
        subst fs. destruct EA as [(n & -> & _)| ->]; intros T; apply (f_equal snd) in T; cbn [snd] in T.
        * destruct (snd form); discriminate T.
        * apply (f_equal (fun x => last x [])) in T. rewrite last_last in T. revert T. apply key_neq. reflexivity. }
  destruct BF as (IS & BF).
  (* afterwards *)
  assert (U12_16 := rel_trans _ _ _ _ _ _ _ _ _ R13 (rel_trans _ _ _ _ _ _ _ _ _ R14 (rel_trans _ _ _ _ _ _ _ _ _ R15 R16))).
  assert (U11_16 := rel_trans _ _ _ _ _ _ _ _ _ R12 U12_16).
  assert (U10_16 := rel_trans _ _ _ _ _ _ _ _ _ R11 U11_16).
  assert (U1_16 := rel_trans _ _ _ _ _ _ _ _ _ U1_10 U10_16).
  assert (U6_16 := rel_trans _ _ _ _ _ _ _ _ _ R7 (rel_trans _ _ _ _ _ _ _ _ _ R8 (rel_trans _ _ _ _ _ _ _ _ _ R9 (rel_trans _ _ _ _ _ _ _ _ _ R10 U10_16)))).
  assert (U4_16 := rel_trans _ _ _ _ _ _ _ _ _ R6 U6_16).
  assert (LL : forall T K h p k q, rel D f T K h (d_objects d16) -> link h p k q -> link (d_objects d16) p k q) by (intros T K h p2 k q [[X U] _ _]; eapply link_upd; exact U).
  assert (La := LL _ _ _ _ _ _ U4_16 L4). assert (Lform := LL _ _ _ _ _ _ U11_16 L11). assert (Lg := LL _ _ _ _ _ _ U12_16 L12). assert (Lfs := LL _ _ _ _ _ _ R16 L15).
  assert (Ngs : g <> fs) by (intros ->; assert (T := St15 _ _ Rg14 I); congruence).
  assert (Rg16 : read (d_objects d16) g = Some (VInt (QSigned z2))) by (rewrite E16; eapply write_stays; [exact Rf15|constructor|exact (St15 _ _ Rg14 I)|exact I|exact Ngs]).
  assert (Dr : h0 r <> None) by congruence. assert (Dp : h0 p <> None) by congruence.
  assert (Other : forall n, h0 n = None -> n <> fst form -> n <> r /\ n <> p /\ n <> fst a /\ n <> fst g /\ n <> fst fs).
  { intros n Hn Nn. repeat split; intros ->; try contradiction.
    - destruct BG as [[T _]|T]; [contradiction|congruence].
    - destruct IS as [[T _]|T]; [contradiction|congruence]. }
  assert (Ff : f <> fst form) by (destruct IF as [[T _]|(_ & T & _)]; congruence).
  assert (Fs : s <> fst form) by (destruct IF as [[T _]|(_ & _ & T)]; congruence).
  assert (F16 : d_objects d16 f = Some w10).
  { destruct (Other f NF Ff) as (O2 & O3 & O4 & O5 & O6). rewrite read_top in F10. destruct U10_16 as [_ _ Fr]. rewrite Fr; [exact F10|rewrite F10; discriminate|]. cbn [app In fst]. clear - O2 O3 O4 O5 O6 Ff. intuition congruence. }
  assert (S16 : d_objects d16 s = Some signature).
  { destruct (Other s A1 Fs) as (O2 & O3 & O4 & O5 & O6). assert (S1 : d_objects d1 s = Some signature) by (rewrite E1, put_get, N.eqb_refl; reflexivity).
    destruct U1_16 as [_ _ Fr]. rewrite Fr; [exact S1|rewrite S1; discriminate|]. cbn [app In fst]. clear - O2 O3 O4 O5 O6 Fs SF. intuition congruence. }
  assert (LG : forall b k q (good : value -> Prop) u l w, link (d_objects d16) b k q -> read (d_objects d16) b = Some (VDict l) -> entry_get k l = Some u -> read (d_objects d16) q = Some w -> good w ->
    (forall n g, u = VRef n g -> g = 0) /\ exists w, deref (d_objects d16) u = Some w /\ good w).
  { clear. intros b k q good u l w (l' & u' & Rl & Gu & Pu) Rb Gu' Rq Gw. assert (l' = l) by congruence. subst l'. assert (u' = u) by congruence. subst u'. split.
    - intros n g ->. destruct Pu as [-> _]. reflexivity.
    - exists w. split; [|exact Gw]. rewrite <- Rq. eapply place_deref; eassumption. }
  assert (Ra16 : exists l, read (d_objects d16) a = Some (VArr l)).
  { destruct U6_16 as [[X U] _ _]. destruct (U _ _ Ra6) as (x' & Rx & [Sx _] & _). cbn [sh] in Sx. destruct Sx as (l & ->). exists l. exact Rx. }
  destruct Ra16 as (la16 & Ra16).
  assert (Dform : exists l, read (d_objects d16) form = Some (VDict l)) by (destruct Lg as (l & u & Rl & _); exists l; exact Rl). destruct Dform as (lform & Rform).
  split.
  { assert (Kp : kept_all (fun n => h0 n <> None) f h0 (d_objects d16)) by (destruct U16 as [_ Kp _]; exact Kp). assert (NX := kept_nodes _ _ _ Kp).
    assert (KD : forall n l, h0 n = Some (VDict l) -> exists l', d_objects d16 n = Some (VDict l') /\ forall k, ~ In k form_keys -> entry_get k l' = entry_get k l).
    { intros n l Hl. destruct (Kp n) with (v := VDict l) as (v' & Hv & Kv); [congruence|exact Hl|]. inversion Kv; subst; [eauto|]. eexists. split; [exact Hv|assumption]. }
    destruct (KD _ _ Hr) as (lr' & Hr' & Kr'). destruct (KD _ _ Ht) as (m' & Ht' & _). destruct (KD _ _ Hp) as (lp' & Hp' & _).
    split; [congruence|]. split; [|split; [|split]].
    - exists t, lr', m', c. split; [exact Hr'|]. split; [rewrite Kr' by (apply key_notin; reflexivity); exact Hpg|]. split; [exact Ht'|]. split; [eapply page_count_ext; eassumption|]. split; [exact Hpos|]. eapply get_page_ext; eassumption.
    - exists lp'. exact Hp'.
    - intros l u Dl Gu. eapply LG; [exact La|rewrite read_top; exact Dl|exact Gu|exact Ra16|]. exists la16. reflexivity.
    - intros l u Dl Gu. eapply LG; [exact Lform|rewrite read_top; exact Dl|exact Gu|exact Rform|]. exists lform. split; [reflexivity|]. split.
      + intros l' u' Dl' Gu'. cbn [deref] in Dl'. injection Dl' as <-. eapply LG; [exact Lg|exact Rform|exact Gu'|exact Rg16|]. exists z2. split; [reflexivity|exact Hz2].
      + intros l' u' Dl' Gu'. cbn [deref] in Dl'. injection Dl' as <-. eapply LG; [exact Lfs|exact Rform|exact Gu'|exact Rf16|]. eexists. reflexivity. }
  split.
  - exact A1.
  - exact NF.
  - exact SF.
  - exact S16.
  - eexists. split; [exact F16|]. repeat split; reflexivity.
  - eexists. split; [exact F16|reflexivity].
  - destruct U16 as [_ Kp _]. exact Kp.
  - intros n Hn Ni. destruct U16 as [_ _ Fr]. apply Fr; [exact Hn|]. cbn [app In].
    assert (n <> p /\ n <> r) as [M1 M2] by (split; intros ->; apply Ni; [right; left|left]; reflexivity).
    assert (M3 : n <> f) by congruence. assert (M4 : n <> fst a) by (intros ->; exact (Ni IA)).
    assert (M5 : n <> fst form) by (intros ->; destruct IF as [[_ T]|(T & _)]; contradiction).
    assert (M6 : n <> fst g) by (intros ->; destruct BG as [[_ T]|T]; [contradiction|congruence]).
    assert (M7 : n <> fst fs) by (intros ->; destruct IS as [[_ T]|T]; [contradiction|congruence]).
    clear - M1 M2 M3 M4 M5 M6 M7. cbn [fst]. intuition congruence.
  - intros i Hi. rewrite (Bz i). unfold flag_bit. rewrite (leads2 _ r _ form _ g Lform Lg), Rg16. rewrite Bz2, Bz1 by exact Hi. destruct (i =? 1)%Z, (i =? 0)%Z; reflexivity.
  - intros Nsh. destruct BF as [(Nfa & FF & _)|(_ & _ & _ & T)]; [|contradiction]. split.
    + unfold form_fields at 1, listed. rewrite (leads2 _ r _ form _ fs Lform Lfs), Rf16, FF. reflexivity.
    + unfold page_annotations at 1, listed. rewrite (leads1 _ p _ a La), BA.
      rewrite E16. rewrite (write_stays [] _ fs _ _ a _ Rf15 (sv_arr _ _) Ra15 I) by congruence. reflexivity.
  - intros Sh. destruct BF as [(_ & _ & T)|(-> & FF & -> & _)]; [contradiction|].
    unfold form_fields at 1, listed. rewrite (leads2 _ r _ form _ a Lform Lfs), Rf16, FF, <- app_assoc. reflexivity.
Qed.

(** ** Signing comes to an end *)
Definition entryok (h : objects) (b : place) (k : bytes) (kind : value -> Prop) : Prop :=
  forall l u, read h b = Some (VDict l) -> entry_get k l = Some u -> exists q w, place_of b k u q /\ read h q = Some w /\ kind w.
Definition is_array (w : value) : Prop := exists l, w = VArr l.
Definition is_dict (w : value) : Prop := exists l, w = VDict l.
Definition is_flags (w : value) : Prop := exists z, w = VInt (QSigned z) /\ (- 2 ^ 63 <= z < 2 ^ 63)%Z.
Definition stays (kind : value -> Prop) (h h' : objects) : Prop := forall q x, read h q = Some x -> kind x -> exists x', read h' q = Some x' /\ kind x'.
Lemma stays_trans : forall kind a b c, stays kind a b -> stays kind b c -> stays kind a c.
Proof. intros kind a b c H1 H2 q x R K. destruct (H1 q x R K) as (y & R1 & K1). exact (H2 q y R1 K1). Qed.
Lemma array_stays : forall X K h h', upd X K h h' -> stays is_array h h'.
Proof. intros X K h h' U q x R (l & ->). destruct (U q _ R) as (x' & R' & [S _] & _). exists x'. split; [exact R'|exact S]. Qed.
Lemma dict_stays : forall X K h h', upd X K h h' -> stays is_dict h h'.
Proof. intros X K h h' U q x R (l & ->). destruct (U q _ R) as (x' & R' & [S _] & _). exists x'. split; [exact R'|exact S]. Qed.
Lemma leaf_flags : forall h h', (forall q x, read h q = Some x -> leaf x -> read h' q = Some x) -> stays is_flags h h'.
Proof. intros h h' H q x R (z & -> & Hz). exists (VInt (QSigned z)). split; [apply H; [exact R|exact I]|]. exists z. auto. Qed.
Lemma array_flags : forall h q l l', read h q = Some (VArr l) -> stays is_flags h (write h q (VArr l')).
Proof.
  intros h q l l' R b x Rb (z & -> & Hz). exists (VInt (QSigned z)). split; [|exists z; auto]. eapply write_stays; [exact R|apply sv_arr|exact Rb|exact I|]. intros ->. congruence.
Qed.
Lemma entry_step : forall kind X K h h' b k l0, upd X K h h' -> stays kind h h' -> ~ In k K -> read h b = Some (VDict l0) -> entryok h b k kind -> entryok h' b k kind.
Proof.
  intros kind X K h h' b k l0 U S N R E l' u' R' G'. destruct (U b _ R) as (x' & R2 & [_ V] & _). destruct (V l0 eq_refl) as (l1 & -> & A & B). assert (l1 = l') by congruence. subst l1.
  destruct (entry_get k l0) as [u|] eqn:G.
  - destruct (A k u G) as (u1 & G1 & Sh). assert (u1 = u') by congruence. subst u1. destruct (E l0 u R G) as (q & w & P & Rq & Kw). destruct (S q w Rq Kw) as (w' & Rw & Kw').
    exists q, w'. split; [eapply place_sh; eassumption|]. auto.
  - rewrite (B k N G) in G'. discriminate.
Qed.
Lemma bind_go : forall A B (m : act A) (k : A -> act B) d d1 a, m d = (d1, Ok a) -> bind m k d = k a d1.
Proof. intros A B m k d d1 a H. unfold bind. rewrite H. reflexivity. Qed.
Lemma find_total : forall b k d l u q, read (d_objects d) b = Some (VDict l) -> entry_get k l = Some u -> place_of b k u q -> find_entry b k d = (d, Ok q).
Proof.
  intros b k d l u q R G P. unfold find_entry. rewrite (bind_go _ _ _ _ _ d l) by (unfold dict_at, lift; rewrite R; reflexivity). unfold lift, entry_place. rewrite G.
  destruct u; cbn [place_of] in P; try (subst q; reflexivity). destruct P as [-> ->]. reflexivity.
Qed.
Lemma dict_total : forall b d l, read (d_objects d) b = Some (VDict l) -> dict_at b d = (d, Ok l).
Proof. intros b d l R. unfold dict_at, lift. rewrite R. reflexivity. Qed.
Lemma array_total : forall b d l, read (d_objects d) b = Some (VArr l) -> array_at b d = (d, Ok l).
Proof. intros b d l R. unfold array_at, lift. rewrite R. reflexivity. Qed.
Lemma insert_total : forall b k v d l, read (d_objects d) b = Some (VDict l) -> entry_get k l = None ->
  insert_entry b k v d = ({| d_objects := write (d_objects d) b (VDict ((k, v) :: l)); d_root := d_root d |}, Ok tt).
Proof. intros b k v d l R G. unfold insert_entry. rewrite (bind_go _ _ _ _ _ d l) by (apply dict_total; exact R). unfold has. rewrite G. reflexivity. Qed.
Lemma append_total : forall b v d l, read (d_objects d) b = Some (VArr l) ->
  append_value b v d = ({| d_objects := write (d_objects d) b (VArr (l ++ [v])); d_root := d_root d |}, Ok tt).
Proof. intros b v d l R. unfold append_value. rewrite (bind_go _ _ _ _ _ d l) by (apply array_total; exact R). reflexivity. Qed.
Lemma ensure_total : forall (kind : value -> Prop) b k v d l, read (d_objects d) b = Some (VDict l) -> (forall n g, v <> VRef n g) -> kind v -> entryok (d_objects d) b k kind ->
  exists d' q w, ensure_entry b k v d = (d', Ok q) /\ read (d_objects d') q = Some w /\ kind w.
Proof.
  intros kind b k v d l R Hv Kv E. unfold ensure_entry. rewrite (bind_go _ _ _ _ _ d l) by (apply dict_total; exact R). unfold has. destruct (entry_get k l) as [u|] eqn:G.
  - destruct (E l u R G) as (q & w & P & Rq & Kw). exists d, q, w. split; [|auto]. rewrite (bind_go _ _ _ _ _ d tt) by reflexivity. eapply find_total; eassumption.
  - erewrite bind_go by (apply insert_total; eassumption). assert (R' := write_read _ _ _ (VDict ((k, v) :: l)) R).
    eexists _, (fst b, snd b ++ [k]), v. split; [|split; [|exact Kv]].
    + apply find_total with (l := (k, v) :: l) (u := v); [exact R'|cbn [entry_get]; rewrite Append.beqb_refl; reflexivity|]. destruct v; try reflexivity. exfalso. eapply Hv. reflexivity.
    + cbn [d_objects]. rewrite (read_app _ _ _ _ R'). cbn [entry_get]. rewrite Append.beqb_refl. reflexivity.
Qed.
Lemma flag_total : forall b pos d z, read (d_objects d) b = Some (VInt (QSigned z)) -> (- 2 ^ 63 <= z < 2 ^ 63)%Z -> (0 <= pos < 64)%Z ->
  exists z', set_flag b pos d = ({| d_objects := write (d_objects d) b (VInt (QSigned z')); d_root := d_root d |}, Ok tt) /\ (- 2 ^ 63 <= z' < 2 ^ 63)%Z.
Proof.
  intros b pos d z R Hz Hp. destruct (C50_set_bit z pos true) as (z' & E & Hr & _); [exact Hz|exact Hp|]. exists z'. split; [|exact Hr].
  unfold set_flag. rewrite R. unfold toggled. cbn [number_of]. rewrite E. reflexivity.
Qed.

(** no number from [b] on is used *)
Lemma upto_put : forall b h n v, unused_from b h -> n <= b -> unused_from (b + 1) (put_object h n v).
Proof. intros b h n v H L m Hm. rewrite put_get. replace (m =? n) with false by lia. apply H. lia. Qed.
Lemma upto_write : forall b h q v, unused_from b h -> unused_from b (write h q v).
Proof. intros b h q v H m Hm. unfold write. destruct (h (fst q)) eqn:E; [|exact (H m Hm)]. rewrite put_get. destruct (N.eqb_spec m (fst q)) as [->|_]; [rewrite (H _ Hm) in E; discriminate|exact (H m Hm)]. Qed.

Lemma allocate_total : forall alloc v d n, alloc (d_objects d) = Ok n -> allocate alloc v d = ({| d_objects := put_object (d_objects d) n v; d_root := d_root d |}, Ok n).
Proof. intros alloc v d n E. unfold allocate. rewrite E. reflexivity. Qed.
Lemma run_success : forall alloc limit b fuel signature d r p, fresh_numbers alloc -> room alloc limit -> unused_from b (d_objects d) -> b + 2 <= limit -> signable fuel d r p ->
  exists d' s f, sign_objects alloc fuel signature d = (d', Ok (s, f)).
Proof.
  intros alloc limit b0 fuel signature d r p Hfresh Htotal Hfin Hlim (Hroot & (t & lr & m & c & Hr & Hpg & Ht & Hc & Hpos & Hget) & (lp & Hp) & Hann & Hform).
  set (h0 := d_objects d) in *. unfold sign_objects.
  assert (Hb0 : 0 < b0) by (destruct (N.eq_dec b0 0) as [->|]; [rewrite (Hfin r ltac:(lia)) in Hr; discriminate|lia]).
  destruct (Htotal b0 _ ltac:(lia) ltac:(lia) Hfin) as (s & A1 & B1). rewrite (bind_go _ _ _ _ _ _ _ (allocate_total alloc signature d s A1)). cbv beta. apply Hfresh in A1. fold h0. set (d1 := Build_doc _ _).
  assert (O1 : forall n v, h0 n = Some v -> d_objects d1 n = Some v) by (intros n v G; apply put_old; assumption).
  assert (F1 : unused_from (b0 + 1) (d_objects d1)) by (apply upto_put; assumption).
  assert (U1 : upd [] [] h0 (d_objects d1)) by (apply alloc_upd; exact A1).
  assert (S1 : stays is_flags h0 (d_objects d1)) by (apply leaf_flags; intros q x R _; apply alloc_stays; assumption).
  rewrite (bind_go _ _ _ _ _ d1 r) by (eapply catalog_some; [exact Hroot|rewrite read_top; apply O1; exact Hr]).
  rewrite (bind_go _ _ _ _ _ d1 p) by (eapply first_page_some; [apply O1; exact Hr|exact Hpg|apply O1; exact Ht|eapply page_count_ext; [apply put_ext; exact A1|exact Hc]|exact Hpos|eapply get_page_ext; [apply put_ext; exact A1|exact Hget]]).
  assert (EI : forall b v k good, deref h0 v = read h0 b -> entry_if_any h0 v k good -> entryok h0 b k good).
  { clear. intros b v k good D E l u R G. destruct (E l u) as (Hg & w & Dw & Gw); [rewrite D; exact R|exact G|].
    assert (P : exists q, place_of b k u q) by (destruct u; cbn [place_of]; eauto; rewrite (Hg _ _ eq_refl); eauto). destruct P as (q & P). exists q, w. split; [exact P|]. split; [|exact Gw]. rewrite <- Dw. symmetry. eapply place_deref; eassumption. }
  (* the annotations *)
  assert (EA : entryok (d_objects d1) (p, []) (str "Annots") is_array).
  { apply (entry_step is_array _ _ h0 _ _ _ lp U1); [eapply array_stays; exact U1|intros []|rewrite read_top; exact Hp|]. apply (EI _ (VRef p 0)); [apply deref_ref|exact Hann]. }
  assert (NV : forall n g0, VArr [] <> VRef n g0) by discriminate.
  destruct (ensure_total is_array (p, []) (str "Annots") (VArr []) d1 lp) as (d4 & a & wa & H4 & Ra & (la & ->)); [rewrite read_top; apply O1; exact Hp|exact NV|exists []; reflexivity|exact EA|].
  rewrite (bind_go _ _ _ _ _ _ _ H4). rewrite (bind_go _ _ _ _ _ _ _ (array_total _ _ _ Ra)).
  assert (F4 : unused_from (b0 + 1) (d_objects d4)).
  { destruct (ensure_ok _ _ _ _ _ _ NV H4) as [_ [->|(l & _ & _ & [E _] & _)]]; [exact F1|]. rewrite E. apply upto_write. exact F1. }
  apply (ensure_rel (fun _ => False) 0) in H4; [|exact NV|apply key_in; reflexivity|constructor]. destruct H4 as (_ & _ & [[X4 U4] _ _] & St4 & _).
  (* the field *)
  destruct (Htotal (b0 + 1) _ ltac:(lia) ltac:(lia) F4) as (f & A6 & B6). rewrite (bind_go _ _ _ _ _ _ _ (allocate_total alloc (annotation p) d4 f A6)). apply Hfresh in A6. set (d6 := Build_doc (put_object (d_objects d4) f (annotation p)) _).
  assert (R6 : read (d_objects d6) a = Some (VArr la)) by (apply alloc_stays; assumption).
  rewrite (bind_go _ _ _ _ _ _ _ (append_total _ (VRef f 0) _ _ R6)). set (d7 := Build_doc (write (d_objects d6) _ _) _).
  assert (Ff : read (d_objects d7) (f, []) = Some (annotation p)).
  { assert (Na : fst a <> f) by (intros Ea; unfold read in Ra; rewrite Ea, A6 in Ra; discriminate).
    rewrite read_top. unfold d7; cbn [d_objects]. unfold write. destruct (d_objects d6 (fst a)); [rewrite put_get; replace (f =? fst a) with false by (symmetry; apply N.eqb_neq; congruence)|]; unfold d6; cbn [d_objects]; rewrite put_get, N.eqb_refl; reflexivity. }
  assert (G8 : entry_get (str "FT") [(str "P", VRef p 0); (str "Rect", VArr [VInt (QSigned 0); VInt (QSigned 0); VInt (QSigned 0); VInt (QSigned 0)]); (str "Subtype", VName (str "Widget")); (str "Type", VName (str "Annot"))] = None) by reflexivity.
  rewrite (bind_go _ _ _ _ _ _ _ (insert_total _ _ (VName (str "Sig")) _ _ Ff G8)). set (d8 := Build_doc (write (d_objects d7) _ _) _).
  assert (Ff8 := write_read _ _ _ (VDict ((str "FT", VName (str "Sig")) :: [(str "P", VRef p 0); (str "Rect", VArr [VInt (QSigned 0); VInt (QSigned 0); VInt (QSigned 0); VInt (QSigned 0)]); (str "Subtype", VName (str "Widget")); (str "Type", VName (str "Annot"))])) Ff).
  assert (G9 : entry_get (str "T") ((str "FT", VName (str "Sig")) :: [(str "P", VRef p 0); (str "Rect", VArr [VInt (QSigned 0); VInt (QSigned 0); VInt (QSigned 0); VInt (QSigned 0)]); (str "Subtype", VName (str "Widget")); (str "Type", VName (str "Annot"))]) = None) by reflexivity.
  match type of G9 with entry_get _ ?l = _ => set (l8 := l) in * end.
  rewrite (bind_go _ _ _ _ _ _ _ (insert_total _ _ (VStr false (str "Signature1")) d8 _ Ff8 G9)). set (d9 := Build_doc (write (d_objects d8) _ _) _).
  assert (Ff9 := write_read _ _ _ (VDict ((str "T", VStr false (str "Signature1")) :: l8)) Ff8).
  assert (G10 : entry_get (str "V") ((str "T", VStr false (str "Signature1")) :: l8) = None) by reflexivity.
  match type of G10 with entry_get _ ?l = _ => set (l9 := l) in * end.
  rewrite (bind_go _ _ _ _ _ _ _ (insert_total _ _ (VRef s 0) d9 _ Ff9 G10)). set (d10 := Build_doc (write (d_objects d9) _ _) _).
  assert (F10 : unused_from (b0 + 1 + 1) (d_objects d10)) by (unfold d10, d9, d8, d7, d6; cbn [d_objects]; repeat apply upto_write; apply upto_put; assumption).
  (* until the form is there *)
  assert (U10 : exists X, upd X ([] ++ [str "Annots"] ++ [] ++ [] ++ [str "FT"] ++ [str "T"] ++ [str "V"]) h0 (d_objects d10)).
  { eexists. eapply upd_trans; [exact U1|]. eapply upd_trans; [exact U4|]. eapply upd_trans; [apply alloc_upd with (X := []); exact A6|].
    eapply upd_trans; [eapply write_upd; [exact R6|apply sv_arr]|]. eapply upd_trans; [eapply write_upd; [exact Ff|constructor; exact G8]|]. eapply upd_trans; [eapply write_upd; [exact Ff8|constructor; exact G9]|]. eapply write_upd; [exact Ff9|constructor; exact G10]. }
  destruct U10 as (X10 & U10). cbn [app] in U10.
  assert (WD : forall h q l k y, read h q = Some (VDict l) -> entry_get k l = None -> stays is_flags h (write h q (VDict ((k, y) :: l)))).
  { clear. intros h q l k v R S. apply leaf_flags. intros b y Rb Ly. eapply write_stays; [exact R|constructor; exact S|exact Rb|exact Ly|]. intros ->. rewrite R in Rb. injection Rb as <-. exact Ly. }
  assert (S10 : stays is_flags h0 (d_objects d10)).
  { eapply stays_trans; [exact S1|]. eapply stays_trans; [apply leaf_flags; exact St4|]. eapply stays_trans; [apply leaf_flags with (h' := d_objects d6); intros q x R _; apply alloc_stays; assumption|].
    eapply stays_trans; [eapply array_flags; exact R6|]. apply stays_trans with (b := d_objects d8); [apply WD; [exact Ff|exact G8]|]. apply stays_trans with (b := d_objects d9); [apply WD; [exact Ff8|exact G9]|]. apply WD; [exact Ff9|exact G10]. }
  assert (NK : forall k, existsb (bytes_eqb k) [str "Annots"; str "FT"; str "T"; str "V"] = false -> ~ In k [str "Annots"; str "FT"; str "T"; str "V"]) by (intros k; apply key_notin).
  assert (Rr : read h0 (r, []) = Some (VDict lr)) by (rewrite read_top; exact Hr).
  destruct (dict_stays _ _ _ _ U10 _ _ Rr (ex_intro _ lr eq_refl)) as (x10 & Rr10 & (lr10 & ->)).
  (* the form *)
  assert (H11 : exists d11 form lf, interactive_form alloc r d10 = (d11, Ok form) /\ read (d_objects d11) form = Some (VDict lf) /\
    entryok (d_objects d11) form (str "SigFlags") is_flags /\ entryok (d_objects d11) form (str "Fields") is_array).
  { unfold interactive_form. rewrite (bind_go _ _ _ _ _ d10 lr10) by (apply dict_total; exact Rr10). unfold has. destruct (entry_get (str "AcroForm") lr10) as [u10|] eqn:G11.
    - destruct (entry_get (str "AcroForm") lr) as [u|] eqn:Gu.
      + destruct (Hform lr u Hr Gu) as (Hg & w & Dw & (lf & -> & Hs & Hf)).
        assert (EF : entryok h0 (r, []) (str "AcroForm") is_dict).
        { apply (EI _ (VRef r 0)); [apply deref_ref|]. intros l v Dl Gv. destruct (Hform l v Dl Gv) as (Hg' & w & Dw' & (l' & -> & _)). split; [exact Hg'|]. eexists. split; [exact Dw'|]. exists l'. reflexivity. }
        assert (P : exists q, place_of (r, []) (str "AcroForm") u q) by (destruct u; cbn [place_of]; eauto; rewrite (Hg _ _ eq_refl); eauto). destruct P as (q & P).
        assert (Rq : read h0 q = Some (VDict lf)) by (rewrite <- Dw; symmetry; eapply place_deref; eassumption).
        destruct (dict_stays _ _ _ _ U10 _ _ Rq (ex_intro _ lf eq_refl)) as (x & Rq10 & (lf10 & ->)).
        assert (L10 : link (d_objects d10) (r, []) (str "AcroForm") q) by (eapply link_upd; [exact U10|]; exists lr, u; auto).
        destruct L10 as (l' & u' & Rl' & Gu' & Pu'). assert (l' = lr10) by congruence. subst l'. assert (u' = u10) by congruence. subst u'.
        exists d10, q, lf10. split; [|split; [exact Rq10|split]].
        * rewrite (bind_go _ _ _ _ _ d10 q) by (eapply find_total; eassumption). rewrite (bind_go _ _ _ _ _ d10 lf10) by (apply dict_total; exact Rq10). reflexivity.
        * eapply entry_step; [exact U10|exact S10|apply NK; reflexivity|exact Rq|]. apply (EI _ (VDict lf)); [symmetry; exact Rq|exact Hs].
        * eapply entry_step; [exact U10|eapply array_stays; exact U10|apply NK; reflexivity|exact Rq|]. apply (EI _ (VDict lf)); [symmetry; exact Rq|exact Hf].
      + exfalso. destruct (U10 _ _ Rr) as (x' & Rx & [_ V] & _). destruct (V lr eq_refl) as (l' & -> & _ & B). rewrite Rr10 in Rx. injection Rx as <-. rewrite (B (str "AcroForm") (NK (str "AcroForm") eq_refl) Gu) in G11. discriminate.
    - destruct (Htotal (b0 + 1 + 1) _ ltac:(lia) ltac:(lia) F10) as (n & A11 & _). rewrite (bind_go _ _ _ _ _ _ _ (allocate_total alloc (VDict []) d10 n A11)). apply Hfresh in A11.
      set (d11a := Build_doc (put_object (d_objects d10) n _) _).
      assert (Ra11 : read (d_objects d11a) (r, []) = Some (VDict lr10)) by (apply alloc_stays; assumption).
      rewrite (bind_go _ _ _ _ _ _ _ (insert_total _ _ (VRef n 0) _ _ Ra11 G11)).
      assert (Nr : r <> n) by (intros ->; rewrite read_top, A11 in Rr10; discriminate).
      assert (Rn : read (write (d_objects d11a) (r, []) (VDict ((str "AcroForm", VRef n 0) :: lr10))) (n, []) = Some (VDict [])).
      { rewrite read_top. unfold write. cbn [fst snd put_part]. destruct (d_objects d11a r); [rewrite put_get; replace (n =? r) with false by (symmetry; apply N.eqb_neq; congruence)|]; unfold d11a; cbn [d_objects]; rewrite put_get, N.eqb_refl; reflexivity. }
      eexists _, (n, []), []. split; [reflexivity|]. cbn [d_objects]. split; [exact Rn|]. split; intros l u Rl Gl; rewrite Rn in Rl; injection Rl as <-; discriminate Gl. }
  destruct H11 as (d11 & form & lf & H11 & Rform & Es & Ef). rewrite (bind_go _ _ _ _ _ _ _ H11).
  (* the flags *)
  assert (NI : forall n g0, VInt (QSigned 0) <> VRef n g0) by discriminate.
  destruct (ensure_total is_flags form (str "SigFlags") (VInt (QSigned 0)) d11 lf Rform NI) as (d12 & g & wg & H12 & Rg & (z & -> & Hz)); [exists 0%Z; split; [reflexivity|split; [discriminate|reflexivity]]|exact Es|].
  rewrite (bind_go _ _ _ _ _ _ _ H12).
  assert (U12 : exists X, upd X [str "SigFlags"] (d_objects d11) (d_objects d12)).
  { destruct (ensure_ok _ _ _ _ _ _ NI H12) as [_ [->|(l & Rl & Gl & [E _] & _)]]; [exists []; apply upd_refl|]. rewrite E. eexists. eapply write_upd; [exact Rl|constructor; exact Gl]. }
  destruct U12 as (X12 & U12).
  destruct (flag_total g 0 d12 z Rg Hz) as (z1 & H13 & Hz1); [lia|]. rewrite (bind_go _ _ _ _ _ _ _ H13). set (d13 := Build_doc (write (d_objects d12) _ _) _).
  assert (Rg13 := write_read _ _ _ (VInt (QSigned z1)) Rg).
  destruct (flag_total g 1 d13 z1 Rg13 Hz1) as (z2 & H14 & Hz2); [lia|]. rewrite (bind_go _ _ _ _ _ _ _ H14). set (d14 := Build_doc (write (d_objects d13) _ _) _).
  (* the fields *)
  assert (U14 : exists X, upd X ([str "SigFlags"] ++ [] ++ []) (d_objects d11) (d_objects d14)).
  { eexists. eapply upd_trans; [exact U12|]. eapply upd_trans; [eapply write_upd; [exact Rg|apply sv_int]|]. eapply write_upd; [exact Rg13|apply sv_int]. }
  destruct U14 as (X14 & U14). cbn [app] in U14.
  destruct (dict_stays _ _ _ _ U14 _ _ Rform (ex_intro _ lf eq_refl)) as (x14 & Rform14 & (lf14 & ->)).
  destruct (ensure_total is_array form (str "Fields") (VArr []) d14 lf14 Rform14 NV) as (d15 & fs & wf & H15 & Rf & (af & ->)); [exists []; reflexivity| |].
  { eapply entry_step; [exact U14|eapply array_stays; exact U14|apply key_notin; reflexivity|exact Rform|exact Ef]. }
  rewrite (bind_go _ _ _ _ _ _ _ H15). rewrite (bind_go _ _ _ _ _ _ _ (append_total _ (VRef f 0) _ _ Rf)). eexists _, s, f. reflexivity.
Qed.

Lemma shared_dec : forall h r p, shared_array h r p \/ ~ shared_array h r p.
Proof.
  intros h r p. destruct (h p) as [[| | | | | | | |l| ]|] eqn:Ep; try (right; intros (? & ? & ? & ? & ? & ?T & _); congruence).
  destruct (entry_get (str "Annots") l) as [[| | | | | |n g| | | ]|] eqn:Ea; try (right; intros (? & ? & ? & ? & ? & ?T & ?G & _); congruence).
  destruct (leads h (VRef r 0) [str "AcroForm"]) as [[| | | | | | | |m| ]|] eqn:El; try (right; intros (? & ? & ? & ? & ? & _ & _ & ?T & _); congruence).
  destruct (entry_get (str "Fields") m) as [[| | | | | |n' g'| | | ]|] eqn:Ef; try (right; intros (? & ? & ? & ? & ? & _ & _ & ?T & ?G); congruence).
  destruct (N.eq_dec n n') as [<-|D]; [left; exists n, g, g', l, m; auto|right; intros (? & ? & ? & ? & ? & ?T & ?G & ?T & ?G); congruence].
Qed.

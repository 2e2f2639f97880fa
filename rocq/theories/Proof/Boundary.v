(** Lemmas about the boundary of the C interface. *)
From Coq Require Import List String Arith NArith Lia Bool.
From Verif Require Import Model.Boundary Model.Interface Spec.Boundary.
Import ListNotations.
Local Open Scope string_scope.
Local Open Scope list_scope.

(** ** The class behind each type of handle *)
Fixpoint lookup (l : list (string * string)) (h : string) : option string :=
  match l with [] => None | (x, c) :: r => if x =? h then Some c else lookup r h end.
Definition reads (p : nat) (o : op) : option string :=
  match o with
  | Use q c | Drop q c | Share q c => if (q =? p)%nat then Some c else None
  | Upcast q c _ => if (q =? p)%nat then Some c else None
  | Convert q c _ _ _ => if (q =? p)%nat then Some c else None
  | _ => None
  end.
Fixpoint first_read (p : nat) (l : list op) : option string :=
  match l with [] => None | o :: r => match reads p o with Some c => Some c | None => first_read p r end end.
Fixpoint note_params (k : nat) (ps : list param) (b : list op) (acc : list (string * string)) : list (string * string) :=
  match ps with
  | [] => acc
  | PHandle h :: r =>
      note_params (S k) r b
        (match lookup acc h, first_read k b with None, Some c => acc ++ [(h, c)] | _, _ => acc end)
  | _ :: r => note_params (S k) r b acc
  end.
(** handles that nothing reads: the class they are stored as *)
Definition note_given (acc : list (string * string)) (o : op) : list (string * string) :=
  match o with
  | Give _ h c | Convert _ _ _ h c => match lookup acc h with None => acc ++ [(h, c)] | Some _ => acc end
  | _ => acc
  end.
Definition classes : list (string * string) :=
  Eval vm_compute in
    fold_left (fun acc f => fold_left note_given (f_body f) acc) interface
      (fold_left (fun acc f => note_params 0 (f_params f) (f_body f) acc) interface []).
Definition class_of (h : string) : option string := lookup classes h.

(** ** What a body does, read off its text *)
Definition view (p : param) : option string := match p with PHandle h => class_of h | _ => None end.
Fixpoint set_view (l : list (option string)) (p : nat) (x : option string) : list (option string) :=
  match l, p with
  | [], _ => []
  | _ :: r, O => x :: r
  | y :: r, S n => y :: set_view r n x
  end.
Definition sees (views : list (option string)) (p : nat) (c : string) : bool :=
  match nth p views None with Some v => v =? c | None => false end.
Definition stores (h c : string) : bool := match class_of h with Some x => x =? c | None => false end.
Fixpoint keeps_class (views : list (option string)) (free pure : bool) (b : list op) : bool :=
  match b with
  | [] => true
  | Check _ :: r | Touch _ :: r | TouchSome _ :: r | Work :: r => keeps_class views free pure r
  | Use p c :: r => sees views p c && keeps_class views free pure r
  | Upcast p c1 c2 :: r => sees views p c1 && derives bases c1 c2 && keeps_class (set_view views p (Some c2)) free false r
  | Give _ h c :: r => stores h c && free && keeps_class views false pure r
  | Convert p c1 _ h c2 :: r => sees views p c1 && stores h c2 && free && keeps_class views false pure r
  | Share p c :: r => sees views p c && stores "IUnknownHandle" c && free && pure && keeps_class views false pure r
  | Drop p c :: r => sees views p c && free && match r with [] => true | _ => false end
  end.
Definition fn_keeps_class (f : fn) : bool := keeps_class (map view (f_params f)) true true (f_body f).

Definition member (p : nat) (l : list nat) : bool := existsb (Nat.eqb p) l.
Fixpoint looks_first (seen : list nat) (b : list op) : bool :=
  match b with
  | [] => true
  | Check p :: r => looks_first (p :: seen) r
  | Use p _ :: r | Touch p :: r | Give p _ _ :: r | Drop p _ :: r | Share p _ :: r => member p seen && looks_first seen r
  | Convert p _ q _ _ :: r => member p seen && member q seen && looks_first seen r
  | Upcast _ _ _ :: r | TouchSome _ :: r | Work :: r => looks_first seen r
  end.
Fixpoint refuses (rq : list nat) (b : list op) : bool :=
  match b with
  | Check p :: r => refuses (filter (fun q => negb (Nat.eqb p q)) rq) r
  | Upcast _ _ _ :: r => refuses rq r
  | _ => match rq with [] => true | _ => false end
  end.

Definition named (n : string) (l : list string) : bool := existsb (String.eqb n) l.
Lemma named_in : forall n l, named n l = false -> ~ In n l.
Proof.
  intros n l H Hin. unfold named in H. rewrite (proj2 (existsb_exists _ _)) in H; [discriminate|].
  exists n. split; [exact Hin|]. apply String.eqb_refl.
Qed.
Lemma not_named : forall n l, ~ In n l -> named n l = false.
Proof.
  intros n l H. destruct (named n l) eqn:E; [|reflexivity]. unfold named in E. apply existsb_exists in E.
  destruct E as [x [Hx Hb]]. apply String.eqb_eq in Hb. subst x. contradiction.
Qed.

Lemma all_keep_class : forall f, In f interface -> ~ In (f_name f) mistaking -> fn_keeps_class f = true.
Proof.
  assert (H : forallb (fun f => named (f_name f) mistaking || fn_keeps_class f) interface = true) by (vm_compute; reflexivity).
  intros f Hf Hn. rewrite forallb_forall in H. specialize (H f Hf). rewrite (not_named _ _ Hn) in H. exact H.
Qed.
Lemma all_look_first : forall f, In f interface -> ~ In (f_name f) unchecked -> looks_first [] (f_body f) = true.
Proof.
  assert (H : forallb (fun f => named (f_name f) unchecked || looks_first [] (f_body f)) interface = true) by (vm_compute; reflexivity).
  intros f Hf Hn. rewrite forallb_forall in H. specialize (H f Hf). rewrite (not_named _ _ Hn) in H. exact H.
Qed.

(** the parameters that have to be there, as a list *)
Definition spared (n : string) (p : nat) : bool :=
  ((n =? "FileWriterObserver_CreateCustom") && (p <=? 10)%nat) || ((n =? "SigningKey_CreateCustom") && (p =? 4)%nat) ||
  ((n =? "Logging_SetCallbackLogger") && (p =? 2)%nat) || ((n =? "File_SetEncryptionPassword") && (p =? 1)%nat) ||
  ((n =? "PKCS12Key_CreateFromFile") && (p =? 1)%nat) || ((n =? "PKCS12Key_CreateFromBuffer") && (p =? 1)%nat).
Fixpoint wanted (n : string) (k : nat) (ps : list param) : list nat :=
  match ps with
  | [] => []
  | PValue _ :: r => wanted n (S k) r
  | _ :: r => (if spared n k then [] else [k]) ++ wanted n (S k) r
  end.
Lemma spared_spec : forall f p, spared (f_name f) p = true -> may_be_null f p.
Proof.
  intros f p H. unfold spared in H. unfold may_be_null.
  repeat (rewrite orb_true_iff in H || rewrite andb_true_iff in H).
  repeat rewrite String.eqb_eq in H. repeat rewrite Nat.eqb_eq in H. rewrite Nat.leb_le in H. tauto.
Qed.
Lemma wanted_in : forall n ps k p x,
  nth_error ps p = Some x -> (forall t, x <> PValue t) -> spared n (k + p) = false -> In (k + p) (wanted n k ps).
Proof.
  intros n; induction ps as [|y r IH]; intros k p x E Hx Hs; [destruct p; discriminate|].
  destruct p as [|p]; simpl in E.
  - injection E as <-. rewrite Nat.add_0_r in *. destruct y as [h|h|t|t]; simpl; try (exfalso; eapply Hx; reflexivity); rewrite Hs; left; reflexivity.
  - replace (k + S p) with (S k + p) in * by lia.
    pose proof (IH (S k) p x E Hx Hs) as Hin.
    destruct y; simpl; try (apply in_or_app; right); exact Hin.
Qed.
Lemma demanded_wanted : forall f p, demanded f p -> In p (wanted (f_name f) 0 (f_params f)).
Proof.
  intros f p [[x [E Hx]] Hn]. apply (wanted_in (f_name f) (f_params f) 0 p x E Hx).
  destruct (spared (f_name f) (0 + p)) eqn:S; [|reflexivity]. exfalso. apply Hn. apply spared_spec. exact S.
Qed.
Lemma all_refuse : forall f, In f interface -> ~ In (f_name f) unchecked ->
  refuses (wanted (f_name f) 0 (f_params f)) (f_body f) = true.
Proof.
  assert (H : forallb (fun f => named (f_name f) unchecked || refuses (wanted (f_name f) 0 (f_params f)) (f_body f)) interface = true)
    by (vm_compute; reflexivity).
  intros f Hf Hn. rewrite forallb_forall in H. specialize (H f Hf). rewrite (not_named _ _ Hn) in H. exact H.
Qed.

(** ** Objects and their counts *)
Lemma at_set_same : forall hp a o x, at_ hp a = Some x -> at_ (set hp a o) a = o.
Proof.
  unfold at_. induction hp as [|y r IH]; intros a o x H; [destruct a; discriminate|].
  destruct a as [|a]; simpl in *; [reflexivity|]. eapply IH. exact H.
Qed.
Lemma at_set_other : forall hp a b o, a <> b -> at_ (set hp a o) b = at_ hp b.
Proof.
  unfold at_. induction hp as [|y r IH]; intros a b o H; [reflexivity|].
  destruct a as [|a], b as [|b]; simpl; try reflexivity; [congruence|]. apply IH. congruence.
Qed.
Lemma at_grow_old : forall hp o a x, at_ hp a = Some x -> at_ (hp ++ [o]) a = Some x.
Proof.
  unfold at_. intros hp o a x H. destruct (nth_error hp a) as [y|] eqn:E; [|discriminate].
  rewrite nth_error_app1; [rewrite E; exact H|]. apply nth_error_Some. rewrite E. discriminate.
Qed.
Lemma at_grow_new : forall hp o, at_ (hp ++ [o]) (List.length hp) = o.
Proof. intros hp o. unfold at_. rewrite nth_error_app2, Nat.sub_diag by lia. reflexivity. Qed.
Lemma at_grow_inv : forall hp o a x, at_ (hp ++ [o]) a = Some x -> at_ hp a = Some x \/ (a = List.length hp /\ o = Some x).
Proof.
  unfold at_. intros hp o a x H. destruct (Nat.lt_trichotomy a (List.length hp)) as [L|[L|L]].
  - left. rewrite nth_error_app1 in H by exact L. exact H.
  - right. subst a. rewrite nth_error_app2, Nat.sub_diag in H by lia. simpl in H. auto.
  - exfalso. rewrite nth_error_app2 in H by lia. destruct (a - List.length hp) as [|n] eqn:E; [lia|]. simpl in H. destruct n; discriminate.
Qed.
Lemma at_short : forall hp a, List.length hp <= a -> at_ hp a = None.
Proof. intros hp a H. unfold at_. rewrite (proj2 (nth_error_None hp a) H). reflexivity. Qed.

Definition handles_on (L : list (string * nat * string)) (a : nat) : nat :=
  List.length (filter (fun x => Nat.eqb (snd (fst x)) a) L).
Lemma handles_app : forall L M a, handles_on (L ++ M) a = handles_on L a + handles_on M a.
Proof. intros L M a. unfold handles_on. rewrite filter_app, app_length. reflexivity. Qed.
Lemma handles_in : forall L h a v, In (h, a, v) L -> handles_on L a > 0.
Proof.
  intros L h a v H. unfold handles_on.
  assert (Hin : In (h, a, v) (filter (fun x => Nat.eqb (snd (fst x)) a) L)) by (apply filter_In; split; [exact H|simpl; apply Nat.eqb_refl]).
  destruct (filter (fun x => Nat.eqb (snd (fst x)) a) L); [destruct Hin|simpl; lia].
Qed.
Lemma handles_remove : forall L k h a v b, nth_error L k = Some (h, a, v) ->
  handles_on L b = handles_on (remove_at L k) b + (if Nat.eqb a b then 1 else 0).
Proof.
  unfold handles_on. induction L as [|x r IH]; intros k h a v b H; [destruct k; discriminate|].
  destruct k as [|k]; simpl in *.
  - injection H as ->. simpl. destruct (Nat.eqb a b); simpl; lia.
  - specialize (IH k h a v b H). destruct (Nat.eqb (snd (fst x)) b); simpl; lia.
Qed.
Lemma in_remove : forall {A : Type} (L : list A) k x, In x (remove_at L k) -> In x L.
Proof.
  induction L as [|y r IH]; intros k x H; [destruct k; destruct H|]. destruct k as [|k]; simpl in *; [right; exact H|].
  destruct H as [->|H]; [left; reflexivity|right; eapply IH; exact H].
Qed.

(** ** The state of the program and the library *)
Record fits (hp : heap) (L : list (string * nat * string)) : Prop := {
  ft_class : forall h a v, In (h, a, v) L -> class_of h = Some v;
  ft_object : forall h a v, In (h, a, v) L -> exists o, at_ hp a = Some o /\ derives bases (o_class o) v = true;
  ft_held : forall a o, at_ hp a = Some o -> o_held o = handles_on L a;
  ft_alive : forall a o, at_ hp a = Some o -> o_held o + o_lib o > 0 }.

Lemma settle_some : forall o x, settle o = Some x -> x = o /\ o_held o + o_lib o > 0.
Proof. intros o x H. unfold settle in H. destruct (Nat.eqb_spec (o_held o + o_lib o) 0); [discriminate|]. injection H as <-. split; [reflexivity|lia]. Qed.
Lemma settle_keep : forall o, o_held o > 0 -> settle o = Some o.
Proof. intros o H. unfold settle. destruct (Nat.eqb_spec (o_held o + o_lib o) 0); [lia|reflexivity]. Qed.

Lemma fits_hold : forall hp L h a v o,
  fits hp L -> at_ hp a = Some o -> class_of h = Some v -> derives bases (o_class o) v = true -> fits (hold hp a) (L ++ [(h, a, v)]).
Proof.
  intros hp L h a v o F E C D. unfold hold. rewrite E.
  set (o' := {| o_class := o_class o; o_held := S (o_held o); o_lib := o_lib o |}).
  assert (Ha : at_ (set hp a (Some o')) a = Some o') by (eapply at_set_same; exact E).
  assert (Hb : forall b, b <> a -> at_ (set hp a (Some o')) b = at_ hp b) by (intros b Hb; apply at_set_other; congruence).
  split.
  - intros h0 a0 v0 Hin. apply in_app_or in Hin. destruct Hin as [Hin|[Hin|[]]].
    + eapply ft_class; eassumption.
    + injection Hin as <- <- <-. exact C.
  - intros h0 a0 v0 Hin. apply in_app_or in Hin. destruct (Nat.eq_dec a0 a) as [->|Hne].
    + exists o'. split; [exact Ha|]. simpl. destruct Hin as [Hin|[Hin|[]]].
      * destruct (ft_object _ _ F _ _ _ Hin) as [x [Ex Dx]]. rewrite E in Ex. injection Ex as <-. exact Dx.
      * injection Hin as <- <-. exact D.
    + destruct Hin as [Hin|[Hin|[]]]; [|congruence].
      destruct (ft_object _ _ F _ _ _ Hin) as [x [Ex Dx]]. exists x. rewrite (Hb _ Hne). auto.
  - intros b x Hx. rewrite handles_app. unfold handles_on at 2. simpl. destruct (Nat.eq_dec b a) as [->|Hne].
    + rewrite Ha in Hx. injection Hx as <-. rewrite Nat.eqb_refl. simpl. rewrite (ft_held _ _ F _ _ E). lia.
    + rewrite (Hb _ Hne) in Hx. rewrite (ft_held _ _ F _ _ Hx). destruct (Nat.eqb_spec a b); [congruence|]. simpl. lia.
  - intros b x Hx. destruct (Nat.eq_dec b a) as [->|Hne].
    + rewrite Ha in Hx. injection Hx as <-. simpl. lia.
    + rewrite (Hb _ Hne) in Hx. eapply ft_alive; eassumption.
Qed.
Lemma fits_fresh : forall hp L h v d,
  fits hp L -> class_of h = Some v -> derives bases d v = true ->
  fits (hp ++ [Some {| o_class := d; o_held := 1; o_lib := 0 |}]) (L ++ [(h, List.length hp, v)]).
Proof.
  intros hp L h v d F C D. set (o' := {| o_class := d; o_held := 1; o_lib := 0 |}).
  assert (None_on : handles_on L (List.length hp) = 0).
  { destruct (handles_on L (List.length hp)) eqn:E; [reflexivity|]. exfalso. unfold handles_on in E.
    destruct (filter (fun x => Nat.eqb (snd (fst x)) (List.length hp)) L) as [|[[h0 a0] v0] r] eqn:Ef; [discriminate|].
    assert (Hin : In (h0, a0, v0) (filter (fun x => Nat.eqb (snd (fst x)) (List.length hp)) L)) by (rewrite Ef; left; reflexivity).
    apply filter_In in Hin. destruct Hin as [Hin Hb]. simpl in Hb. apply Nat.eqb_eq in Hb. subst a0.
    destruct (ft_object _ _ F _ _ _ Hin) as [x [Ex _]]. rewrite at_short in Ex by lia. discriminate. }
  split.
  - intros h0 a0 v0 Hin. apply in_app_or in Hin. destruct Hin as [Hin|[Hin|[]]].
    + eapply ft_class; eassumption.
    + injection Hin as <- <- <-. exact C.
  - intros h0 a0 v0 Hin. apply in_app_or in Hin. destruct Hin as [Hin|[Hin|[]]].
    + destruct (ft_object _ _ F _ _ _ Hin) as [x [Ex Dx]]. exists x. split; [apply at_grow_old; exact Ex|exact Dx].
    + injection Hin as <- <- <-. exists o'. split; [apply at_grow_new|exact D].
  - intros b x Hx. rewrite handles_app. unfold handles_on at 2. simpl.
    apply at_grow_inv in Hx. destruct Hx as [Hx|[-> Hx]].
    + rewrite (ft_held _ _ F _ _ Hx). destruct (Nat.eqb_spec (List.length hp) b) as [Eb|]; simpl; [|lia]. subst b.
      rewrite at_short in Hx by lia. discriminate.
    + injection Hx as <-. rewrite Nat.eqb_refl, None_on. reflexivity.
  - intros b x Hx. apply at_grow_inv in Hx. destruct Hx as [Hx|[-> Hx]].
    + eapply ft_alive; eassumption.
    + injection Hx as <-. simpl. lia.
Qed.
Lemma fits_release : forall hp L k h a v,
  fits hp L -> nth_error L k = Some (h, a, v) -> fits (release hp a) (remove_at L k).
Proof.
  intros hp L k h a v F Hk. assert (Hin : In (h, a, v) L) by (eapply nth_error_In; exact Hk).
  destruct (ft_object _ _ F _ _ _ Hin) as [o [E _]]. unfold release. rewrite E.
  set (o' := {| o_class := o_class o; o_held := pred (o_held o); o_lib := o_lib o |}).
  pose proof (ft_held _ _ F _ _ E) as Hheld. pose proof (handles_remove _ _ _ _ _ a Hk) as Hrm. rewrite Nat.eqb_refl in Hrm.
  assert (Ha : at_ (set hp a (settle o')) a = settle o') by (eapply at_set_same; exact E).
  assert (Hb : forall b, b <> a -> at_ (set hp a (settle o')) b = at_ hp b) by (intros b Hb; apply at_set_other; congruence).
  split.
  - intros h0 a0 v0 H0. eapply ft_class; [exact F|]. eapply in_remove. exact H0.
  - intros h0 a0 v0 H0. destruct (Nat.eq_dec a0 a) as [->|Hne].
    + exists o'. rewrite Ha. split.
      * apply settle_keep. simpl. pose proof (handles_in _ _ _ _ H0). lia.
      * simpl. destruct (ft_object _ _ F _ _ _ (in_remove _ _ _ H0)) as [x [Ex Dx]]. rewrite E in Ex. injection Ex as <-. exact Dx.
    + destruct (ft_object _ _ F _ _ _ (in_remove _ _ _ H0)) as [x [Ex Dx]]. exists x. rewrite (Hb _ Hne). auto.
  - intros b x Hx. destruct (Nat.eq_dec b a) as [->|Hne].
    + rewrite Ha in Hx. apply settle_some in Hx. destruct Hx as [-> _]. simpl. lia.
    + rewrite (Hb _ Hne) in Hx. rewrite (ft_held _ _ F _ _ Hx). pose proof (handles_remove _ _ _ _ _ b Hk) as Hr.
      destruct (Nat.eqb_spec a b); [congruence|]. lia.
  - intros b x Hx. destruct (Nat.eq_dec b a) as [->|Hne].
    + rewrite Ha in Hx. apply settle_some in Hx. destruct Hx as [-> Hx]. exact Hx.
    + rewrite (Hb _ Hne) in Hx. eapply ft_alive; eassumption.
Qed.
Lemma fits_library : forall hp L a n, fits hp L -> fits (library hp a n) L.
Proof.
  intros hp L a n F. unfold library. destruct (at_ hp a) as [o|] eqn:E; [|exact F].
  set (o' := {| o_class := o_class o; o_held := o_held o; o_lib := n |}).
  assert (Ha : at_ (set hp a (settle o')) a = settle o') by (eapply at_set_same; exact E).
  assert (Hb : forall b, b <> a -> at_ (set hp a (settle o')) b = at_ hp b) by (intros b Hb; apply at_set_other; congruence).
  split.
  - intros h0 a0 v0 H0. eapply ft_class; eassumption.
  - intros h0 a0 v0 H0. destruct (ft_object _ _ F _ _ _ H0) as [x [Ex Dx]]. destruct (Nat.eq_dec a0 a) as [->|Hne].
    + rewrite E in Ex. injection Ex as <-. exists o'. rewrite Ha. split; [|exact Dx].
      apply settle_keep. simpl. rewrite (ft_held _ _ F _ _ E). eapply handles_in. exact H0.
    + exists x. rewrite (Hb _ Hne). auto.
  - intros b x Hx. destruct (Nat.eq_dec b a) as [->|Hne].
    + rewrite Ha in Hx. apply settle_some in Hx. destruct Hx as [-> _]. simpl. eapply ft_held; eassumption.
    + rewrite (Hb _ Hne) in Hx. eapply ft_held; eassumption.
  - intros b x Hx. destruct (Nat.eq_dec b a) as [->|Hne].
    + rewrite Ha in Hx. apply settle_some in Hx. destruct Hx as [-> Hx]. exact Hx.
    + rewrite (Hb _ Hne) in Hx. eapply ft_alive; eassumption.
Qed.
Lemma fits_start : fits [] [].
Proof. split; try (intros h a v []); intros a o H; destruct a; discriminate. Qed.

(** ** A call keeps the state sound *)
Definition opt {A : Type} (x : option A) : list A := match x with Some y => [y] | None => [] end.
Definition left_after (L : list (string * nat * string)) (cargs : list carg) (gone : option nat) : list (string * nat * string) :=
  match gone with
  | Some p => match nth p cargs ANull with AHandle k => remove_at L k | _ => L end
  | None => L
  end.
Definition args_ok (views : list (option string)) (pure : bool) (args : list arg) (cargs : list carg)
  (L : list (string * nat * string)) : Prop :=
  forall p a v, nth p args Place = Ptr a v ->
    nth p views None = Some v /\
    exists k h v0, nth p cargs ANull = AHandle k /\ nth_error L k = Some (h, a, v0) /\ (pure = true -> v0 = v).
Definition null_access (w : wrong) : Prop := match w with NullAccess _ => True | _ => False end.
Definition sound_end (cargs : list carg) (L : list (string * nat * string)) (o : outcome) : Prop :=
  match o with
  | Fails w => null_access w
  | Returned _ hp given gone => fits hp (left_after L cargs gone ++ opt given)
  end.

Lemma nth_set_arg : forall l p x q a v, nth p l Place = Ptr a v -> nth q (set_arg l p x) Place = if Nat.eqb q p then x else nth q l Place.
Proof.
  induction l as [|y r IH]; intros p x q a v H; [destruct p; discriminate|].
  destruct p as [|p], q as [|q]; simpl in *; try reflexivity. eapply IH. exact H.
Qed.
Lemma nth_set_view : forall l p (x : option string) q, nth p l None <> None -> nth q (set_view l p x) None = if Nat.eqb q p then x else nth q l None.
Proof.
  induction l as [|y r IH]; intros p x q H; [destruct p; exfalso; apply H; reflexivity|].
  destruct p as [|p], q as [|q]; simpl in *; try reflexivity. apply IH. exact H.
Qed.
Lemma sees_eq : forall views p c v, sees views p c = true -> nth p views None = Some v -> v = c.
Proof. intros views p c v H E. unfold sees in H. rewrite E in H. apply String.eqb_eq in H. exact H. Qed.
Lemma stores_eq : forall h c, stores h c = true -> class_of h = Some c.
Proof. intros h c H. unfold stores in H. destruct (class_of h) as [x|]; [|discriminate]. apply String.eqb_eq in H. subst x. reflexivity. Qed.
Lemma is_a_refl : forall n d, is_a bases n d d = true.
Proof. intros n d. destruct n; simpl; rewrite String.eqb_refl; reflexivity. Qed.
Lemma derives_refl : forall d, derives bases d d = true.
Proof. intros d. apply is_a_refl. Qed.

Lemma exec_sound : forall body views free pure args cargs ch hp L given,
  keeps_class views free pure body = true -> fits hp (L ++ opt given) -> (free = true -> given = None) ->
  args_ok views pure args cargs L ->
  sound_end cargs L (exec bases body args ch hp given None).
Proof.
  induction body as [|o r IH]; intros views free pure args cargs ch hp L given K F Fr A; [exact F|].
  destruct o as [p|p c|p|p|p c1 c2| |p h c|p c1 q h c2|p c|p c]; simpl in K; cbn [exec].
  - destruct (nth p args Place) eqn:E; [exact F|eapply IH; eassumption|eapply IH; eassumption].
  - apply andb_true_iff in K. destruct K as [K1 K].
    destruct (nth p args Place) as [|a v|] eqn:E; [exact I| |eapply IH; eassumption].
    destruct (A _ _ _ E) as [Hv [k [h [v0 [Hk [HL _]]]]]]. pose proof (sees_eq _ _ _ _ K1 Hv) as ->.
    destruct (ft_object _ _ F h a v0) as [ob [Eo _]]; [apply in_or_app; left; eapply nth_error_In; exact HL|].
    rewrite Eo, String.eqb_refl. eapply IH; eassumption.
  - destruct (nth p args Place) eqn:E; [exact I|eapply IH; eassumption|eapply IH; eassumption].
  - eapply IH; eassumption.
  - apply andb_true_iff in K. destruct K as [K1 K]. apply andb_true_iff in K1. destruct K1 as [K1 K2].
    assert (Kp : forall y, args_ok (set_view views p y) false args cargs L -> True) by auto. clear Kp.
    destruct (nth p args Place) as [|a v|] eqn:E.
    + eapply IH; [exact K|exact F|exact Fr|]. intros q b w Eq. destruct (A _ _ _ Eq) as [Hv [k [h [v0 [Hk [HL _]]]]]].
      rewrite nth_set_view by (unfold sees in K1; destruct (nth p views None); discriminate).
      destruct (Nat.eqb_spec q p) as [->|]; [congruence|]. split; [exact Hv|]. exists k, h, v0. split; [exact Hk|]. split; [exact HL|discriminate].
    + destruct (A _ _ _ E) as [Hv [k [h [v0 [Hk [HL _]]]]]]. pose proof (sees_eq _ _ _ _ K1 Hv) as ->.
      destruct (ft_object _ _ F h a v0) as [ob [Eo _]]; [apply in_or_app; left; eapply nth_error_In; exact HL|].
      rewrite Eo, String.eqb_refl. eapply IH; [exact K|exact F|exact Fr|].
      intros q b w Eq. rewrite (nth_set_arg _ _ _ _ _ _ E) in Eq.
      rewrite nth_set_view by (rewrite Hv; discriminate).
      destruct (Nat.eqb_spec q p) as [->|Hne].
      * injection Eq as <- <-. split; [reflexivity|]. exists k, h, v0. split; [exact Hk|]. split; [exact HL|discriminate].
      * destruct (A _ _ _ Eq) as [Hv' [k' [h' [v0' [Hk' [HL' _]]]]]]. split; [exact Hv'|].
        exists k', h', v0'. split; [exact Hk'|]. split; [exact HL'|discriminate].
    + eapply IH; [exact K|exact F|exact Fr|]. intros q b w Eq. destruct (A _ _ _ Eq) as [Hv [k [h [v0 [Hk [HL _]]]]]].
      rewrite nth_set_view by (unfold sees in K1; destruct (nth p views None); discriminate).
      destruct (Nat.eqb_spec q p) as [->|]; [congruence|]. split; [exact Hv|]. exists k, h, v0. split; [exact Hk|]. split; [exact HL|discriminate].
  - destruct (ch_work ch); [eapply IH; eassumption|exact F|exact F].
  - apply andb_true_iff in K. destruct K as [K1 K]. apply andb_true_iff in K1. destruct K1 as [K1 K2].
    specialize (Fr K2). subst given. simpl opt in F. rewrite app_nil_r in F. apply stores_eq in K1.
    assert (Fresh : sound_end cargs L (exec bases r args ch
              (hp ++ [Some {| o_class := if derives bases (ch_class ch) c then ch_class ch else c; o_held := 1; o_lib := 0 |}])
              (Some (h, List.length hp, c)) None)).
    { eapply IH; [exact K| |discriminate|exact A]. apply fits_fresh; [exact F|exact K1|].
      destruct (derives bases (ch_class ch) c) eqn:D; [exact D|apply derives_refl]. }
    assert (Goal' : sound_end cargs L
      match ch_object ch with
      | Some a => match at_ hp a with
                  | Some o => if derives bases (o_class o) c then exec bases r args ch (hold hp a) (Some (h, a, c)) None
                      else exec bases r args ch
              (hp ++ [Some {| o_class := if derives bases (ch_class ch) c then ch_class ch else c; o_held := 1; o_lib := 0 |}])
              (Some (h, List.length hp, c)) None
                  | None => exec bases r args ch
              (hp ++ [Some {| o_class := if derives bases (ch_class ch) c then ch_class ch else c; o_held := 1; o_lib := 0 |}])
              (Some (h, List.length hp, c)) None
                  end
      | None => exec bases r args ch
              (hp ++ [Some {| o_class := if derives bases (ch_class ch) c then ch_class ch else c; o_held := 1; o_lib := 0 |}])
              (Some (h, List.length hp, c)) None
      end).
    { destruct (ch_object ch) as [a|]; [|exact Fresh]. destruct (at_ hp a) as [ob|] eqn:Eo; [|exact Fresh].
      destruct (derives bases (o_class ob) c) eqn:D; [|exact Fresh].
      eapply IH; [exact K| |discriminate|exact A]. eapply fits_hold; eassumption. }
    destruct (nth p args Place); [exact I|exact Goal'|exact Goal'].
  - apply andb_true_iff in K. destruct K as [K1 K]. apply andb_true_iff in K1. destruct K1 as [K1 K3].
    apply andb_true_iff in K1. destruct K1 as [K1 K2].
    specialize (Fr K3). subst given. simpl opt in F. rewrite app_nil_r in F. apply stores_eq in K2.
    destruct (nth p args Place) as [|a v|] eqn:E; [exact I| |].
    + destruct (A _ _ _ E) as [Hv [k [h' [v0 [Hk [HL _]]]]]]. pose proof (sees_eq _ _ _ _ K1 Hv) as ->.
      destruct (ft_object _ _ F h' a v0) as [ob [Eo _]]; [eapply nth_error_In; exact HL|].
      rewrite Eo, String.eqb_refl. destruct (derives bases (o_class ob) c2) eqn:D.
      * assert (G : sound_end cargs L (exec bases r args ch (hold hp a) (Some (h, a, c2)) None)).
        { eapply IH; [exact K| |discriminate|exact A]. eapply fits_hold; eassumption. }
        destruct (nth q args Place); [exact I|exact G|exact G].
      * simpl. rewrite app_nil_r. exact F.
    + eapply IH; [exact K|simpl; rewrite app_nil_r; exact F|reflexivity|exact A].
  - apply andb_true_iff in K. destruct K as [K1 K]. apply andb_true_iff in K1. destruct K1 as [K1 K2].
    destruct r as [|]; [|discriminate]. specialize (Fr K2). subst given. simpl opt in F. rewrite app_nil_r in F.
    destruct (nth p args Place) as [|a v|] eqn:E; [exact I| |].
    + destruct (A _ _ _ E) as [Hv [k [h' [v0 [Hk [HL _]]]]]]. pose proof (sees_eq _ _ _ _ K1 Hv) as ->.
      destruct (ft_object _ _ F h' a v0) as [ob [Eo _]]; [eapply nth_error_In; exact HL|].
      rewrite Eo, String.eqb_refl. cbn [exec sound_end left_after opt]. rewrite Hk, app_nil_r. eapply fits_release; eassumption.
    + simpl. rewrite app_nil_r. exact F.
  - apply andb_true_iff in K. destruct K as [K1 K]. apply andb_true_iff in K1. destruct K1 as [K1 K4].
    apply andb_true_iff in K1. destruct K1 as [K1 K3]. apply andb_true_iff in K1. destruct K1 as [K1 K2].
    specialize (Fr K3). subst given. simpl opt in F. rewrite app_nil_r in F. apply stores_eq in K2.
    destruct (nth p args Place) as [|a v|] eqn:E; [exact I| |].
    + destruct (A _ _ _ E) as [Hv [k [h' [v0 [Hk [HL Hp]]]]]]. pose proof (sees_eq _ _ _ _ K1 Hv) as ->. specialize (Hp K4). subst v0.
      destruct (ft_object _ _ F h' a c) as [ob [Eo D]]; [eapply nth_error_In; exact HL|].
      rewrite Eo, String.eqb_refl. eapply IH; [exact K| |discriminate|exact A]. eapply fits_hold; eassumption.
    + eapply IH; [exact K|simpl; rewrite app_nil_r; exact F|reflexivity|exact A].
Qed.

(** the arguments of a well-typed call *)
Lemma typed_ok : forall hp L ps xs, fits hp L -> typed L ps xs = true -> args_ok (map view ps) true (map (pass L) xs) xs L.
Proof.
  intros hp L ps xs F. revert xs. induction ps as [|p ps IH]; intros xs T q a v E.
  - destruct xs; [destruct q; discriminate|discriminate].
  - destruct xs as [|x xs]; [discriminate|]. simpl in T. apply andb_true_iff in T. destruct T as [T1 T].
    destruct q as [|q]; simpl in E; [|exact (IH xs T q a v E)].
    destruct x as [|k|]; simpl in E; try discriminate. destruct (nth_error L k) as [[[h a'] v']|] eqn:Ek; [|discriminate].
    injection E as <- <-. simpl in T1. destruct p as [h'|h'|t|t]; try discriminate. rewrite Ek in T1. apply String.eqb_eq in T1. subst h'.
    split; [simpl; eapply ft_class; [exact F|eapply nth_error_In; exact Ek]|].
    exists k, h, v'. auto.
Qed.
Lemma call_sound : forall f args ch c,
  In f interface -> ~ In (f_name f) mistaking -> fits (c_heap c) (c_owned c) ->
  match call bases f args ch c with
  | Answer _ c' => fits (c_heap c') (c_owned c')
  | Refused => True
  | Broken w => null_access w
  end.
Proof.
  intros f args ch c Hf Hn F. unfold call. destruct (typed (c_owned c) (f_params f) args) eqn:T; [|exact I].
  pose proof (exec_sound (f_body f) (map view (f_params f)) true true (map (pass (c_owned c)) args) args ch (c_heap c) (c_owned c) None
    (all_keep_class f Hf Hn)) as H.
  simpl opt in H. rewrite app_nil_r in H. specialize (H F (fun _ => eq_refl) (typed_ok _ _ _ _ F T)).
  destruct (exec bases (f_body f) (map (pass (c_owned c)) args) ch (c_heap c) None None) as [code hp given gone|w]; [|exact H].
  cbn [c_heap c_owned]. exact H.
Qed.
Lemma play_sound : forall es c,
  Forall (avoiding mistaking) es -> fits (c_heap c) (c_owned c) ->
  match play bases es c with
  | Answer _ c' => fits (c_heap c') (c_owned c')
  | Refused => True
  | Broken w => null_access w
  end.
Proof.
  induction es as [|e r IH]; intros c H F; [exact F|]. inversion H as [|e' r' He Hr]; subst. destruct e as [f args ch|a n]; cbn [play].
  - destruct He as [Hf Hn]. pose proof (call_sound f args ch c Hf Hn F) as Hc.
    destruct (call bases f args ch c) as [code c'| |w]; [apply IH; assumption|exact I|exact Hc].
  - apply IH; [exact Hr|]. cbn [c_heap c_owned]. apply fits_library. exact F.
Qed.
Lemma reached_fits : forall names c, (forall n, In n mistaking -> In n names) -> reached names c -> fits (c_heap c) (c_owned c).
Proof.
  intros names c Hs [es [code [Hes Hp]]].
  assert (H : Forall (avoiding mistaking) es).
  { eapply Forall_impl; [|exact Hes]. intros [f args ch|a n] Ha; [|exact I]. destruct Ha as [A B]. split; [exact A|]. intros C. apply B, Hs, C. }
  pose proof (play_sound es start H fits_start) as G. rewrite Hp in G. exact G.
Qed.

(** ** Null pointers *)
Lemma member_in : forall p l, member p l = true <-> In p l.
Proof.
  intros p l. unfold member. rewrite existsb_exists. split.
  - intros [x [Hx E]]. apply Nat.eqb_eq in E. subst x. exact Hx.
  - intros H. exists p. split; [exact H|apply Nat.eqb_refl].
Qed.
Lemma exec_no_null : forall body seen args ch hp given gone p,
  looks_first seen body = true -> (forall q, member q seen = true -> nth q args Place <> Null) ->
  exec bases body args ch hp given gone <> Fails (NullAccess p).
Proof.
  induction body as [|o r IH]; intros seen args ch hp given gone n K S; [discriminate|].
  destruct o as [p|p c|p|p|p c1 c2| |p h c|p c1 q h c2|p c|p c]; simpl in K; cbn [exec].
  - destruct (nth p args Place) eqn:E; [discriminate| |];
      (eapply IH; [exact K|]; intros q Hq; simpl in Hq; apply orb_true_iff in Hq; destruct Hq as [Hq|Hq]; [apply Nat.eqb_eq in Hq; subst q; rewrite E; discriminate|apply S; exact Hq]).
  - apply andb_true_iff in K. destruct K as [K1 K]. destruct (nth p args Place) as [|a v|] eqn:E; [exfalso; exact (S _ K1 E)| |eapply IH; eassumption].
    destruct (at_ hp a) as [o|]; [|discriminate]. destruct (v =? c); [eapply IH; eassumption|discriminate].
  - apply andb_true_iff in K. destruct K as [K1 K]. destruct (nth p args Place) as [|a v|] eqn:E; [exfalso; exact (S _ K1 E)|eapply IH; eassumption|eapply IH; eassumption].
  - eapply IH; eassumption.
  - destruct (nth p args Place) as [|a v|] eqn:E; [eapply IH; eassumption| |eapply IH; eassumption].
    destruct (at_ hp a) as [o|]; [|discriminate]. destruct (v =? c1); [|discriminate]. eapply IH; [exact K|].
    intros q Hq. rewrite (nth_set_arg _ _ _ _ _ _ E). destruct (Nat.eqb q p); [discriminate|apply S; exact Hq].
  - destruct (ch_work ch); [eapply IH; eassumption|discriminate|discriminate].
  - apply andb_true_iff in K. destruct K as [K1 K]. cbv zeta.
    destruct (nth p args Place) as [|a v|] eqn:E; [exfalso; exact (S _ K1 E)| |];
      (destruct (ch_object ch) as [b|]; [destruct (at_ hp b) as [o|]; [destruct (derives bases (o_class o) c)|]|]; eapply IH; eassumption).
  - apply andb_true_iff in K. destruct K as [K1 K]. apply andb_true_iff in K1. destruct K1 as [K1 K2].
    destruct (nth p args Place) as [|a v|] eqn:E; [exfalso; exact (S _ K1 E)| |eapply IH; eassumption].
    destruct (at_ hp a) as [o|]; [|discriminate]. destruct (v =? c1); [|discriminate].
    destruct (derives bases (o_class o) c2); [|discriminate].
    destruct (nth q args Place) as [|a' v'|] eqn:E'; [exfalso; exact (S _ K2 E')| |]; eapply IH; eassumption.
  - apply andb_true_iff in K. destruct K as [K1 K]. destruct (nth p args Place) as [|a v|] eqn:E; [exfalso; exact (S _ K1 E)| |eapply IH; eassumption].
    destruct (at_ hp a) as [o|]; [|discriminate]. destruct (v =? c); [eapply IH; eassumption|discriminate].
  - apply andb_true_iff in K. destruct K as [K1 K]. destruct (nth p args Place) as [|a v|] eqn:E; [exfalso; exact (S _ K1 E)| |eapply IH; eassumption].
    destruct (at_ hp a) as [o|]; [|discriminate]. destruct (v =? c); [eapply IH; eassumption|discriminate].
Qed.
Lemma exec_refuses : forall body rq args ch hp given gone p,
  refuses rq body = true -> In p rq -> nth p args Place = Null ->
  exec bases body args ch hp given gone = Returned PARAMETER_VALUE hp given gone \/
  exists w, exec bases body args ch hp given gone = Fails w /\ ~ null_access w.
Proof.
  induction body as [|o r IH]; intros rq args ch hp given gone p K Hin E; [simpl in K; destruct rq; [destruct Hin|discriminate]|].
  destruct o as [q|q c|q|q|q c1 c2| |q h c|q c1 q' h c2|q c|q c]; simpl in K;
    try (destruct rq; [destruct Hin|discriminate]); cbn [exec].
  - destruct (Nat.eq_dec p q) as [->|Hne]; [rewrite E; left; reflexivity|].
    destruct (nth q args Place); [left; reflexivity| |]; (eapply IH; [exact K| |exact E]; apply filter_In; split; [exact Hin|];
      destruct (Nat.eqb_spec q p); [congruence|reflexivity]).
  - destruct (nth q args Place) as [|a v|] eqn:Eq; [eapply IH; eassumption| |eapply IH; eassumption].
    destruct (at_ hp a) as [o|]; [|right; eexists; split; [reflexivity|exact id]].
    destruct (v =? c1); [|right; eexists; split; [reflexivity|exact id]].
    eapply IH; [exact K|exact Hin|]. rewrite (nth_set_arg _ _ _ _ _ _ Eq). destruct (Nat.eqb_spec p q) as [->|]; [congruence|exact E].
Qed.
Lemma call_no_null : forall f args ch c p, In f interface -> ~ In (f_name f) unchecked -> call bases f args ch c <> Broken (NullAccess p).
Proof.
  intros f args ch c p Hf Hn. unfold call. destruct (typed (c_owned c) (f_params f) args); [|discriminate].
  pose proof (exec_no_null (f_body f) [] (map (pass (c_owned c)) args) ch (c_heap c) None None p (all_look_first f Hf Hn)) as H.
  destruct (exec bases (f_body f) (map (pass (c_owned c)) args) ch (c_heap c) None None) as [code hp given gone|w]; [discriminate|].
  intros E. apply H; [discriminate|congruence].
Qed.
Lemma pass_nth : forall L xs p, nth p xs APlace = ANull -> nth p (map (pass L) xs) Place = Null.
Proof.
  induction xs as [|x xs IH]; intros p H; [destruct p; discriminate|]. destruct p as [|p]; simpl in *; [subst x; reflexivity|apply IH; exact H].
Qed.
Lemma call_refuses : forall f args ch c p,
  In f interface -> ~ In (f_name f) mistaking -> ~ In (f_name f) unchecked -> fits (c_heap c) (c_owned c) ->
  typed (c_owned c) (f_params f) args = true -> demanded f p -> nth_error args p = Some ANull ->
  call bases f args ch c = Answer PARAMETER_VALUE c.
Proof.
  intros f args ch c p Hf Hm Hu F T Hd Hp.
  pose proof (call_sound f args ch c Hf Hm F) as G. unfold call in *. rewrite T in *.
  destruct (exec_refuses (f_body f) (wanted (f_name f) 0 (f_params f)) (map (pass (c_owned c)) args) ch (c_heap c) None None p
    (all_refuse f Hf Hu) (demanded_wanted f p Hd)) as [E|[w [E Hw]]].
  - apply pass_nth. erewrite nth_error_nth; [reflexivity|exact Hp].
  - rewrite E. cbn [opt]. rewrite app_nil_r. destruct c; reflexivity.
  - rewrite E in G. contradiction.
Qed.

(** ** Giving handles back *)
Definition begin_text : string := "ContentOperationBeginTextHandle".
Lemma all_released : forall h v, class_of h = Some v -> h <> begin_text ->
  exists f, In f interface /\ ~ In (f_name f) mistaking /\ f_params f = [PHandle h] /\ f_body f = [Check 0; Drop 0 v].
Proof.
  assert (H : forallb (fun x => (fst x =? begin_text) ||
    existsb (fun f => negb (named (f_name f) mistaking) &&
      match f_params f, f_body f with [PHandle h], [Check O; Drop O v] => (h =? fst x) && (v =? snd x) | _, _ => false end) interface) classes = true)
    by (vm_compute; reflexivity).
  intros h v Hc Hne.
  assert (Hin : In (h, v) classes).
  { unfold class_of in Hc. revert Hc. generalize classes. intros l. induction l as [|[x c] r IH]; simpl; [discriminate|].
    destruct (String.eqb_spec x h) as [->|]; intros E; [injection E as ->; left; reflexivity|right; apply IH; exact E]. }
  rewrite forallb_forall in H. specialize (H _ Hin). simpl fst in H. simpl snd in H.
  apply orb_true_iff in H. destruct H as [H|H]; [apply String.eqb_eq in H; contradiction|].
  apply existsb_exists in H. destruct H as [f [Hf Hb]]. apply andb_true_iff in Hb. destruct Hb as [Hn Hb].
  exists f. split; [exact Hf|]. split; [apply named_in; apply negb_true_iff; exact Hn|].
  destruct (f_params f) as [|[h0|?|?|?] [|]]; try discriminate.
  destruct (f_body f) as [|o1 [|o2 [|o3 r]]]; try discriminate; destruct o1 as [q| | | | | | | | |]; try discriminate;
    (destruct q as [|q]; [|discriminate]); try discriminate; destruct o2 as [ | | | | | | | |q v0|]; try discriminate;
    (destruct q as [|q]; [|discriminate]); try discriminate.
  apply andb_true_iff in Hb. destruct Hb as [H1 H2]. apply String.eqb_eq in H1. apply String.eqb_eq in H2. subst. auto.
Qed.
Lemma none_takes_begin_text : forall f, In f interface -> ~ In (PHandle begin_text) (f_params f).
Proof.
  assert (H : forallb (fun f => forallb (fun p => match p with PHandle h => negb (h =? begin_text) | _ => true end) (f_params f)) interface = true)
    by (vm_compute; reflexivity).
  intros f Hf Hin. rewrite forallb_forall in H. specialize (H f Hf). rewrite forallb_forall in H. specialize (H _ Hin).
  cbv beta iota in H. rewrite String.eqb_refl in H. discriminate.
Qed.

Lemma keep_begin_text : forall f args ch c code c' a v,
  In f interface -> call bases f args ch c = Answer code c' -> In (begin_text, a, v) (c_owned c) -> In (begin_text, a, v) (c_owned c').
Proof.
  intros f args ch c code c' a v Hf H Hin. unfold call in H.
  destruct (typed (c_owned c) (f_params f) args) eqn:T; [|discriminate].
  destruct (exec bases (f_body f) (map (pass (c_owned c)) args) ch (c_heap c) None None) as [code0 hp given gone|w]; [|discriminate].
  assert (Hc : c_owned c' = left_after (c_owned c) args gone ++ opt given) by (injection H as _ <-; reflexivity).
  rewrite Hc. apply in_or_app. left. clear H Hc.
  destruct gone as [p|]; [|exact Hin]. simpl. destruct (nth p args ANull) as [|k|] eqn:E; try exact Hin.
  assert (Hk : exists h, nth_error (c_owned c) k = Some h /\ fst (fst h) <> begin_text).
  { pose proof (none_takes_begin_text f Hf) as Hno. clear -T E Hno. revert p args E T. induction (f_params f) as [|q ps IH]; intros p args E T.
    - destruct args; [destruct p; discriminate|discriminate].
    - destruct args as [|x xs]; [discriminate|]. simpl in T. apply andb_true_iff in T. destruct T as [T1 T].
      destruct p as [|p]; simpl in E.
      + subst x. simpl in T1. destruct q as [h|h|t|t]; try discriminate. destruct (nth_error (c_owned c) k) as [[[h' a'] v']|]; [|discriminate].
        apply String.eqb_eq in T1. subst h'. eexists. split; [reflexivity|]. simpl. intros ->. apply Hno. left. reflexivity.
      + eapply IH; [intros Hi; apply Hno; right; exact Hi|exact E|exact T]. }
  destruct Hk as [h [Ek Hh]]. clear -Hin Ek Hh. revert k Ek. induction (c_owned c) as [|x r IH]; intros k Ek; [destruct k; discriminate|].
  destruct k as [|k]; simpl in *.
  - injection Ek as ->. destruct Hin as [->|Hin]; [exfalso; apply Hh; reflexivity|exact Hin].
  - destruct Hin as [->|Hin]; [left; reflexivity|right; apply IH; assumption].
Qed.
Lemma play_begin_text : forall es c code c' a v,
  Forall (avoiding []) es -> play bases es c = Answer code c' -> In (begin_text, a, v) (c_owned c) -> In (begin_text, a, v) (c_owned c').
Proof.
  induction es as [|e r IH]; intros c code c' a v H P Hin; [injection P as _ <-; exact Hin|].
  inversion H as [|e' r' He Hr]; subst. destruct e as [f args ch|b n]; cbn [play] in P.
  - destruct He as [Hf _]. destruct (call bases f args ch c) as [code1 c1| |w] eqn:E; try discriminate.
    eapply IH; [exact Hr|exact P|]. eapply keep_begin_text; eassumption.
  - eapply IH; [exact Hr|exact P|]. exact Hin.
Qed.

Lemma release_spec : forall f args ch c k h a v,
  fits (c_heap c) (c_owned c) -> nth_error (c_owned c) k = Some (h, a, v) ->
  f_params f = [PHandle h] -> f_body f = [Check 0; Drop 0 v] -> args = [AHandle k] ->
  call bases f args ch c = Answer SUCCESS {| c_heap := release (c_heap c) a; c_owned := remove_at (c_owned c) k |}.
Proof.
  intros f args ch c k h a v F Hk Hp Hb ->. unfold call. rewrite Hp, Hb. cbn [typed typed1]. rewrite Hk, String.eqb_refl. cbn [andb].
  cbn [map pass]. rewrite Hk. destruct (ft_object _ _ F h a v) as [o [Eo _]]; [eapply nth_error_In; exact Hk|].
  cbn [exec nth]. rewrite Eo, String.eqb_refl. cbn [exec nth]. rewrite app_nil_r. reflexivity.
Qed.
Lemma release_gone : forall hp L k h a v b,
  fits hp L -> nth_error L k = Some (h, a, v) ->
  (at_ (release hp a) b = None <->
   at_ hp b = None \/ (b = a /\ handles_on L a = 1 /\ exists o, at_ hp a = Some o /\ o_lib o = 0)).
Proof.
  intros hp L k h a v b F Hk. assert (Hin : In (h, a, v) L) by (eapply nth_error_In; exact Hk).
  destruct (ft_object _ _ F _ _ _ Hin) as [o [E _]]. pose proof (ft_held _ _ F _ _ E) as Hh. pose proof (handles_in _ _ _ _ Hin) as Hp.
  unfold release. rewrite E.
  destruct (Nat.eq_dec b a) as [->|Hne].
  - rewrite (at_set_same _ _ _ _ E). unfold settle. cbn [o_held o_lib].
    destruct (Nat.eqb_spec (pred (o_held o) + o_lib o) 0) as [Z|Z].
    + split; [intros _; right; split; [reflexivity|]; split; [lia|]; exists o; split; [reflexivity|lia]|reflexivity].
    + split; [discriminate|]. intros [H|[_ [H1 [o' [E' H2]]]]]; [congruence|]. injection E' as <-. lia.
  - rewrite at_set_other by congruence. split; [auto|]. intros [H|[H _]]; [exact H|contradiction].
Qed.

(** ** Particular calls *)
Lemma public_in : forall n, f_name (public n) = n -> n <> "" -> In (public n) interface.
Proof.
  intros n H Hn. unfold public in *. destruct (find (fun f => f_name f =? n) interface) as [f|] eqn:E.
  - apply find_some in E. exact (proj1 E).
  - simpl in H. congruence.
Qed.
Definition avoids (names : list string) (e : event) : bool :=
  match e with
  | Call f _ _ => negb (named (f_name f) names)
  | Library _ _ => true
  end.
Definition script : Type := list (string * list carg * string).
Definition run (s : script) : list event := map (fun x => let '(n, args, cl) := x in calls n args cl) s.
Definition fine (names : list string) (s : script) : bool :=
  forallb (fun x => let '(n, _, _) := x in (f_name (public n) =? n) && negb (n =? "") && negb (named n names)) s.
Lemma fine_avoiding : forall names s, fine names s = true -> Forall (avoiding names) (run s).
Proof.
  intros names. induction s as [|[[n args] cl] r IH]; intros H; [constructor|]. unfold fine in H. cbn [forallb] in H. apply andb_true_iff in H. destruct H as [H Hr].
  apply andb_true_iff in H. destruct H as [H H3]. apply andb_true_iff in H. destruct H as [H1 H2].
  apply String.eqb_eq in H1. apply negb_true_iff in H2. apply String.eqb_neq in H2. apply negb_true_iff in H3.
  constructor; [|apply IH; exact Hr]. split; [apply public_in; assumption|]. rewrite H1. apply named_in. exact H3.
Qed.
(** one history for each function of the list, that calls no other function of the list *)
Definition mistakes : list (string * script) :=
  [
    ("OutlineItemColor_GetRed",
     [ ("Document_Open", [APlace; APlace], "Document");
      ("Document_GetCatalog", [AHandle 0; APlace], "Catalog");
      ("Catalog_GetOutlines", [AHandle 1; APlace], "Outline");
      ("Outline_GetFirst", [AHandle 2; APlace], "OutlineItem");
      ("OutlineItem_GetColor", [AHandle 3; APlace], "OutlineItemColor");
      ("OutlineItemColor_GetRed", [AHandle 4; APlace], "RealObject");
      ("IntegerObject_GetIntegerValue", [AHandle 5; APlace], "") ]);
    ("OutlineItemColor_GetGreen",
     [ ("Document_Open", [APlace; APlace], "Document");
      ("Document_GetCatalog", [AHandle 0; APlace], "Catalog");
      ("Catalog_GetOutlines", [AHandle 1; APlace], "Outline");
      ("Outline_GetFirst", [AHandle 2; APlace], "OutlineItem");
      ("OutlineItem_GetColor", [AHandle 3; APlace], "OutlineItemColor");
      ("OutlineItemColor_GetGreen", [AHandle 4; APlace], "RealObject");
      ("IntegerObject_GetIntegerValue", [AHandle 5; APlace], "") ]);
    ("OutlineItemColor_GetBlue",
     [ ("Document_Open", [APlace; APlace], "Document");
      ("Document_GetCatalog", [AHandle 0; APlace], "Catalog");
      ("Catalog_GetOutlines", [AHandle 1; APlace], "Outline");
      ("Outline_GetFirst", [AHandle 2; APlace], "OutlineItem");
      ("OutlineItem_GetColor", [AHandle 3; APlace], "OutlineItemColor");
      ("OutlineItemColor_GetBlue", [AHandle 4; APlace], "RealObject");
      ("IntegerObject_GetIntegerValue", [AHandle 5; APlace], "") ]);
    ("PageObject_GetParent",
     [ ("Document_Open", [APlace; APlace], "Document");
      ("PageObject_CreateFromDocument", [AHandle 0; APlace], "PageObject");
      ("PageObject_GetParent", [AHandle 1; APlace], "PageTreeNode");
      ("PageTree_GetPageCount", [AHandle 2; APlace], "") ]);
    ("FlateDecodeFilter_Decode",
     [ ("FlateDecodeFilter_Create", [APlace], "FlateDecodeFilter");
      ("Buffer_Create", [APlace], "Buffer");
      ("FlateDecodeFilter_Decode", [AHandle 0; AHandle 1; APlace], "Buffer") ]);
    ("DCTDecodeFilter_Decode",
     [ ("DCTDecodeFilter_Create", [APlace], "DCTDecodeFilter");
      ("Buffer_Create", [APlace], "Buffer");
      ("DCTDecodeFilter_Decode", [AHandle 0; AHandle 1; APlace], "Buffer") ]);
    ("ASCII85DecodeFilter_Decode",
     [ ("ASCII85DecodeFilter_Create", [APlace], "ASCII85DecodeFilter");
      ("Buffer_Create", [APlace], "Buffer");
      ("ASCII85DecodeFilter_Decode", [AHandle 0; AHandle 1; APlace], "Buffer") ]);
    ("ASCIIHexDecodeFilter_Decode",
     [ ("ASCIIHexDecodeFilter_Create", [APlace], "ASCIIHexDecodeFilter");
      ("Buffer_Create", [APlace], "Buffer");
      ("ASCIIHexDecodeFilter_Decode", [AHandle 0; AHandle 1; APlace], "Buffer") ]);
    ("LZWDecodeFilter_Decode",
     [ ("LZWDecodeFilter_Create", [APlace], "LZWDecodeFilter");
      ("Buffer_Create", [APlace], "Buffer");
      ("LZWDecodeFilter_Decode", [AHandle 0; AHandle 1; APlace], "Buffer") ]);
    ("JPXDecodeFilter_Decode",
     [ ("JPXDecodeFilter_Create", [APlace], "JPXDecodeFilter");
      ("Buffer_Create", [APlace], "Buffer");
      ("JPXDecodeFilter_Decode", [AHandle 0; AHandle 1; APlace], "Buffer") ]);
    ("DictionaryObject_Create",
     [ ("DictionaryObject_Create", [APlace], "DictionaryObject");
      ("DictionaryObject_GetSize", [AHandle 0; APlace], "") ]);
    ("Xref_Create",
     [ ("Xref_Create", [APlace], "XrefTable");
      ("Xref_Clear", [AHandle 0], "") ]);
    ("File_AllocateNewEntry",
     [ ("File_Open", [APlace; APlace], "File");
      ("File_AllocateNewEntry", [AHandle 0; APlace], "XrefUsedEntry");
      ("XrefUsedEntry_GetOffset", [AHandle 1; APlace], "") ]) ].
(** one history for each function that does not look: its result pointer is null *)
Definition nulls : list (string * nat * script) :=
  [
    ("PageContents_RecalculateStreamData", 1,
     [ ("Document_Open", [APlace; APlace], "Document");
      ("PageObject_CreateFromDocument", [AHandle 0; APlace], "PageObject");
      ("PageObject_GetContents", [AHandle 1; APlace], "PageContents");
      ("PageContents_RecalculateStreamData", [AHandle 2; ANull], "") ]);
    ("PageLabel_Prefix", 1,
     [ ("Document_Open", [APlace; APlace], "Document");
      ("Document_GetCatalog", [AHandle 0; APlace], "Catalog");
      ("Catalog_GetPageLabels", [AHandle 1; APlace], "PageLabels");
      ("PageLabels_At", [AHandle 2; APlace; APlace], "PageLabel");
      ("PageLabel_Prefix", [AHandle 3; ANull], "StringObjectBase") ]);
    ("PageLabel_Start", 1,
     [ ("Document_Open", [APlace; APlace], "Document");
      ("Document_GetCatalog", [AHandle 0; APlace], "Catalog");
      ("Catalog_GetPageLabels", [AHandle 1; APlace], "PageLabels");
      ("PageLabels_At", [AHandle 2; APlace; APlace], "PageLabel");
      ("PageLabel_Start", [AHandle 3; ANull], "IntegerObject") ]);
    ("PageLabel_Style", 1,
     [ ("Document_Open", [APlace; APlace], "Document");
      ("Document_GetCatalog", [AHandle 0; APlace], "Catalog");
      ("Catalog_GetPageLabels", [AHandle 1; APlace], "PageLabels");
      ("PageLabels_At", [AHandle 2; APlace; APlace], "PageLabel");
      ("PageLabel_Style", [AHandle 3; ANull], "") ]);
    ("DictionaryObject_Remove", 2,
     [ ("StreamObject_Create", [APlace], "StreamObject");
      ("StreamObject_GetHeader", [AHandle 0; APlace], "DictionaryObject");
      ("NameObject_Create", [APlace], "NameObject");
      ("DictionaryObject_Remove", [AHandle 1; AHandle 2; ANull], "") ]) ].
(** a history that ends with the handle of a text object *)
Definition text_script : script :=
    [ ("File_Open", [APlace; APlace], "File");
      ("InputStream_CreateFromFile", [APlace; APlace], "IInputStream");
      ("ContentParser_Create", [AHandle 0; AHandle 1; APlace], "ContentStreamParser");
      ("ContentParser_ReadInstructionCollection", [AHandle 2; APlace], "BaseInstructionCollection");
      ("ContentInstructionCollection_At", [AHandle 3; APlace; APlace], "OperationBeginText");
      ("ContentInstruction_ToOperation", [AHandle 4; APlace], "OperationBeginText");
      ("ContentOperation_ToBeginText", [AHandle 5; APlace], "") ].

(** C71: the objects of one open file can be asked for by several threads at once: every thread gets the object the file has for the number,
    all threads get the same object, and every request is answered. *)
From Coq Require Import List NArith ZArith Bool PeanoNat Arith Lia.
From Verif.Model Require Import Base Threads.
From Verif.Spec Require Import Threads.
From Verif.Proof Require Import Tac Threads.
Import ListNotations.

(** In a sound file (Lengths of streams are direct or objects of the file itself, without cycles), for any number of threads, any requests
    and any schedule: what a thread got for a number is what the file has for it.
    Missing: Lengths inside object streams ([C71_length_in_object_stream_refuted]) and data races ([C71_data_race_refuted]). *)
Theorem C71_object_partial : forall V entry (parse : N -> Z -> V * Z) unpack rank p program k st t n r,
  sound_file entry unpack rank -> runs entry parse unpack k (start p program) st ->
  In (n, r) (got (threads st t)) -> option_map snd r = in_file entry parse unpack n.
Proof.
  intros V entry parse unpack rank p program k st t n r Hs Hr Hin.
  pose proof (inv_runs _ _ _ _ Hs _ _ _ Hr (inv_start _ _ _ _ _)) as Hi.
  destruct (i_got _ _ _ _ Hi _ _ _ Hin) as [E1 E2]. destruct r as [o|].
  - symmetry in E1. destruct (i_slot _ _ _ _ Hi _ _ E1) as [H _]. symmetry. exact H.
  - symmetry. apply E2. reflexivity.
Qed.

(** And all threads, and all requests of one thread, get the same object for a number, and different objects for different numbers. *)
Theorem C71_same_object_partial : forall V entry (parse : N -> Z -> V * Z) unpack rank p program k st t u n m r r',
  sound_file entry unpack rank -> runs entry parse unpack k (start p program) st ->
  In (n, r) (got (threads st t)) -> In (m, r') (got (threads st u)) ->
  (n = m -> r = r') /\ (n <> m -> r <> None -> option_map fst r <> option_map fst r').
Proof.
  intros V entry parse unpack rank p program k st t u n m r r' Hs Hr Hin Hin'.
  pose proof (inv_runs _ _ _ _ Hs _ _ _ Hr (inv_start _ _ _ _ _)) as Hi.
  destruct (i_got _ _ _ _ Hi _ _ _ Hin) as [E1 _]. destruct (i_got _ _ _ _ Hi _ _ _ Hin') as [E1' _].
  split; [intros ->; congruence|]. intros Hne Hsome E. destruct r as [o|]; [|contradiction]. destruct r' as [o'|]; [|discriminate].
  injection E as E. apply Hne. eapply (i_ids _ _ _ _ Hi); [symmetry; exact E1|symmetry; exact E1'|exact E].
Qed.

(** An object that was made is never replaced while the threads go on. *)
Theorem C71_never_replaced_partial : forall V entry (parse : N -> Z -> V * Z) unpack rank p program k st t st' n o,
  sound_file entry unpack rank -> runs entry parse unpack k (start p program) st -> step entry parse unpack t st st' ->
  slot (sh st) n = Some o -> slot (sh st') n = Some o.
Proof.
  intros V entry parse unpack rank p program k st t st' n o Hs Hr Hst Ho.
  pose proof (inv_runs _ _ _ _ Hs _ _ _ Hr (inv_start _ _ _ _ _)) as Hi. eapply step_slot; eassumption.
Qed.

(** Every thread gets its answers in the order of its requests, in every file. *)
Theorem C71_in_order : forall V entry (parse : N -> Z -> V * Z) unpack p program k st,
  runs entry parse unpack k (start p program) st ->
  forall t, program t = rev (map fst (got (threads st t))) ++ (match asking (threads st t) with Some n => [n] | None => [] end) ++ todo (threads st t).
Proof.
  intros V entry parse unpack p program k st Hr.
  assert (HG : forall k st st', runs entry parse unpack k st st' ->
    (forall t, program t = rev (map fst (got (threads st t))) ++ (match asking (threads st t) with Some n => [n] | None => [] end) ++ todo (threads st t)) ->
    forall t, program t = rev (map fst (got (threads st' t))) ++ (match asking (threads st' t) with Some n => [n] | None => [] end) ++ todo (threads st' t)).
  { clear. intros k st st' Hr. induction Hr as [st|k u st st' st'' Hst Hr IH]; intros H; [exact H|]. apply IH. intros t. specialize (H t).
    destruct (Nat.eq_dec t u) as [->|Hne]; [|destruct Hst; rewrite put_other by exact Hne; exact H].
    destruct Hst as [f r Hfr Hn|n Hfr Ha|n l Hfr Ha Ht]; rewrite put_same; cbn [frames asking todo got].
    - exact H.
    - rewrite Ha in H. cbn [map fst rev]. rewrite <- app_assoc. exact H.
    - rewrite Ha, Ht in H. exact H. }
  eapply HG; [exact Hr|]. intros t. reflexivity.
Qed.

(** The threads can always go on until all requests are answered, whatever the schedule was, if nobody asks for an object that is the Length
    of a stream, in a sound file whose object streams are not Lengths; and there are only finitely many steps in all.
    Missing: requests for such objects ([C71_deadlock_refuted]) and Lengths inside object streams ([C71_deadlock_streams_refuted]). *)
Theorem C71_no_deadlock_partial : forall V entry (parse : N -> Z -> V * Z) unpack rank p program count,
  sound_file entry unpack rank -> (forall s, is_object_stream entry s -> ~ is_length entry s) ->
  (forall t, count <= t -> program t = []) -> (forall t n, In n (program t) -> ~ is_length entry n) ->
  (forall k st, runs entry parse unpack k (start p program) st -> all_finished st \/ exists t st', step entry parse unpack t st st')
  /\ exists bound, forall k st, runs entry parse unpack k (start p program) st -> k <= bound.
Proof.
  intros V entry parse unpack rank p program count Hs Hstr Hcount Hask.
  pose proof (quiet_start entry parse unpack count p program Hcount Hask) as Hq0. split.
  - intros k st Hr. pose proof (quiet_runs _ _ _ _ Hs _ _ _ _ Hr Hq0) as Hq.
    destruct (find_below (fun u => negb (done (threads st u))) count) as [(u & _ & Hu)|Hall].
    + right. apply (progress _ _ _ _ Hs count Hstr st u Hq). intros Hf. apply done_ok in Hf. rewrite Hf in Hu. discriminate.
    + left. intros u. destruct (le_lt_dec count u) as [Hu|Hu]; [apply (q_idle _ _ _ _ _ Hq), Hu|].
      apply done_ok. specialize (Hall u Hu). cbn in Hall. destruct (done (threads st u)); [reflexivity|discriminate].
  - exists (total entry unpack rank count (start p program)). intros k st Hr.
    pose proof (runs_bound _ _ _ _ Hs count Hstr _ _ _ Hr Hq0). lia.
Qed.

(** Together: in such a file the threads, wherever they are, can finish, and then every thread has what the file has for each of its requests. *)
Theorem C71_all_answered_partial : forall V entry (parse : N -> Z -> V * Z) unpack rank p program count k st,
  sound_file entry unpack rank -> (forall s, is_object_stream entry s -> ~ is_length entry s) ->
  (forall t, count <= t -> program t = []) -> (forall t n, In n (program t) -> ~ is_length entry n) ->
  runs entry parse unpack k (start p program) st ->
  exists k' st', runs entry parse unpack k' st st' /\ all_finished st' /\
    forall t, rev (map (fun x => (fst x, option_map snd (snd x))) (got (threads st' t)))
              = map (fun n => (n, in_file entry parse unpack n)) (program t).
Proof.
  intros V entry parse unpack rank p program count k st Hs Hstr Hcount Hask Hr.
  pose proof (quiet_runs _ _ _ _ Hs _ _ _ _ Hr (quiet_start entry parse unpack count p program Hcount Hask)) as Hq.
  destruct (can_finish _ _ _ _ Hs count Hstr _ st (Nat.le_refl _) Hq) as (k' & st' & Hr' & Hf).
  exists k', st'. split; [exact Hr'|]. split; [exact Hf|]. intros t.
  assert (Hrr : runs entry parse unpack (k + k') (start p program) st') by (eapply runs_trans; eassumption).
  pose proof (C71_in_order _ _ _ _ _ _ _ _ Hrr t) as Ho. destruct (Hf t) as (_ & F2 & F3). rewrite F2, F3 in Ho. cbn [app] in Ho. rewrite app_nil_r in Ho.
  rewrite Ho. rewrite map_rev. f_equal. rewrite map_map. apply map_ext_in. intros [n r] Hin. cbn [fst snd]. f_equal.
  eapply C71_object_partial; eassumption.
Qed.

(** A thread that is alone never waits for itself, in any file: the mutexes are recursive. *)
Theorem C71_one_thread : forall V entry (parse : N -> Z -> V * Z) unpack p t l k st,
  runs entry parse unpack k (start p (only t l)) st -> finished (threads st t) \/ exists st', step entry parse unpack t st st'.
Proof.
  intros V entry parse unpack p t l k st Hr. destruct (done (threads st t)) eqn:E; [left; apply done_ok; exact E|right].
  apply alone_moves; [|intros Hf; apply done_ok in Hf; congruence].
  eapply alone_runs; [exact Hr|]. intros u Hu. cbn. unfold finished, only. cbn. destruct (Nat.eqb_spec u t); [contradiction|auto].
Qed.

(** In every file with a stream whose Length is another object of the file: a thread that asks for the Length and a thread that asks for the
    stream can stop each other for good.  One has the mutex of the entry and waits for the input, the other the other way round. *)
Theorem C71_deadlock_refuted : forall V entry (parse : N -> Z -> V * Z) unpack p program t u stream length d d' x rest rest',
  t <> u -> stream <> length ->
  entry stream = Some (Own d (Some length)) -> entry length = Some (Own d' x) ->
  program t = length :: rest -> program u = stream :: rest' ->
  exists k st, runs entry parse unpack k (start p program) st /\ stuck entry parse unpack st t /\ stuck entry parse unpack st u.
Proof. intros. eapply deadlock; eassumption. Qed.

(** In every file with a stream whose Length is in an object stream, a thread that asks for the stream and a thread that asks for any object
    of any object stream can do the same. *)
Theorem C71_deadlock_streams_refuted : forall V entry (parse : N -> Z -> V * Z) unpack p program t u stream length s m s' d d' x rest rest',
  t <> u -> stream <> s' ->
  entry stream = Some (Own d (Some length)) -> entry length = Some (Inside s) ->
  entry m = Some (Inside s') -> entry s' = Some (Own d' x) ->
  program t = m :: rest -> program u = stream :: rest' ->
  exists k st, runs entry parse unpack k (start p program) st /\ stuck entry parse unpack st t /\ stuck entry parse unpack st u.
Proof. intros. eapply (deadlock_streams entry parse unpack p program t u stream length m s s'); eassumption. Qed.

(** Two threads that ask for the same object can look at the flag of its entry without a mutex while it is set: undefined behaviour. *)
Theorem C71_data_race_refuted : forall V entry (parse : N -> Z -> V * Z) unpack p program t u n d rest rest',
  t <> u -> entry n = Some (Own d None) -> program t = n :: rest -> program u = n :: rest' ->
  exists k st, runs entry parse unpack k (start p program) st /\ data_race entry st.
Proof. intros. eapply race; eassumption. Qed.

(** Streams whose Lengths lead back to themselves: a single request for one of them makes nested calls without end (the stack overflows),
    and nobody ever gets such an object, whatever the schedule. *)
Theorem C71_cyclic_length_refuted : forall V entry (parse : N -> Z -> V * Z) unpack (cyclic : N -> Prop),
  (forall n, cyclic n -> exists d k, entry n = Some (Own d (Some k)) /\ cyclic k) ->
  (forall s q m v, In (m, v) (unpack s q) -> ~ cyclic m) ->
  (forall p t n rest depth, cyclic n ->
     exists k st, runs entry parse unpack k (start p (only t (n :: rest))) st /\ depth <= List.length (frames (threads st t)))
  /\ (forall p program k st t n r, runs entry parse unpack k (start p program) st -> cyclic n -> ~ In (n, r) (got (threads st t))).
Proof.
  intros V entry parse unpack C HC HU. split.
  - intros p t n rest depth Hn. eapply cycle_deep; eassumption.
  - intros p program k st t n r Hr Hn Hin. pose proof (cinv_runs _ _ _ C HC HU _ _ _ Hr (cinv_start C p program)) as Hi.
    exact (c_got _ _ Hi _ _ _ Hin Hn).
Qed.

(** A stream whose Length is in an object stream that was not read yet is read as if the input stood at the data of the object stream, where
    reading these has left it, even by a single thread: it does not get what the file has. *)
Theorem C71_length_in_object_stream_refuted : forall V entry (parse : N -> Z -> V * Z) unpack p t n k s d ds rest,
  entry n = Some (Own d (Some k)) -> entry k = Some (Inside s) -> entry s = Some (Own ds None) ->
  fst (parse n ds) <> fst (parse n d) ->
  exists j st i v, runs entry parse unpack j (start p (only t (n :: rest))) st /\ got (threads st t) = [(n, Some (i, v))]
    /\ Some v <> in_file entry parse unpack n.
Proof.
  intros V entry parse unpack p t n k s d ds rest Hn Hk Hs Hne.
  destruct (wrong_place entry parse unpack p t n k s d ds rest) as (j & st & i & Hr & Hg); auto; [congruence|].
  exists j, st, i, (fst (parse n ds)). split; [exact Hr|]. split; [exact Hg|]. unfold in_file. rewrite Hn. congruence.
Qed.

(** A file: 1 is a plain object, 2 an object stream with 3 and 4 in it, 5 a stream whose Length is object 6; 7 is a stream whose Length is in
    the object stream, 8 a stream whose Length is itself.  Three threads ask for objects 1 to 5. *)
Definition C71_file (n : N) : option where_is :=
  match n with
  | 1%N => Some (Own 10 None)
  | 2%N => Some (Own 20 None)
  | 3%N => Some (Inside 2)
  | 4%N => Some (Inside 2)
  | 5%N => Some (Own 50 (Some 6%N))
  | 6%N => Some (Own 60 None)
  | _ => None
  end.
Definition C71_bad_file (n : N) : option where_is :=
  match n with
  | 7%N => Some (Own 70 (Some 3%N))
  | 8%N => Some (Own 80 (Some 8%N))
  | _ => C71_file n
  end.
Definition C71_parse (n : N) (q : Z) : (N * Z) * Z := ((n, q), (q + 5)%Z).
Definition C71_unpack (s : N) (q : Z) : list (N * (N * Z)) := if N.eqb s 2 then [(3%N, (3%N, q)); (4%N, (4%N, q))] else [].
Definition C71_program (t : nat) : list N :=
  match t with
  | 0 => [1; 3; 5]%N
  | 1 => [5; 4; 3; 9]%N
  | 2 => [2; 1]%N
  | _ => []
  end.
Definition C71_rank (n : N) : nat := match n with 5%N => 1 | _ => 0 end.

Lemma C71_file_cases : forall n x, C71_file n = Some x ->
  (n = 1%N /\ x = Own 10 None) \/ (n = 2%N /\ x = Own 20 None) \/ (n = 3%N /\ x = Inside 2) \/ (n = 4%N /\ x = Inside 2)
  \/ (n = 5%N /\ x = Own 50 (Some 6%N)) \/ (n = 6%N /\ x = Own 60 None).
Proof.
  intros n x H. destruct n as [|q]; [discriminate|].
  do 3 (destruct q as [q|q|]; try (injection H as <-; tauto); try discriminate).
Qed.

Example C71_case : sound_file C71_file C71_unpack C71_rank
  /\ (forall s, is_object_stream C71_file s -> ~ is_length C71_file s)
  /\ (forall t, 3 <= t -> C71_program t = []) /\ (forall t n, In n (C71_program t) -> ~ is_length C71_file n)
  /\ exists k st, runs C71_file C71_parse C71_unpack k (start 0 C71_program) st /\ all_finished st
       /\ rev (map (fun x => (fst x, option_map snd (snd x))) (got (threads st 0))) = [(1, Some (1, 10%Z)); (3, Some (3, 20%Z)); (5, Some (5, 50%Z))]%N
       /\ rev (map (fun x => (fst x, option_map snd (snd x))) (got (threads st 1)))
            = [(5, Some (5, 50%Z)); (4, Some (4, 20%Z)); (3, Some (3, 20%Z)); (9, None)]%N.
Proof.
  assert (HL : forall k, is_length C71_file k -> k = 6%N).
  { intros k (n & d & H). apply C71_file_cases in H. destruct H as [[_ H]|[[_ H]|[[_ H]|[[_ H]|[[_ H]|[_ H]]]]]]; congruence. }
  assert (H1 : sound_file C71_file C71_unpack C71_rank).
  { constructor.
    - intros n d k H. pose proof H as H'. apply C71_file_cases in H'.
      destruct H' as [[_ E]|[[_ E]|[[_ E]|[[_ E]|[[-> E]|[_ E]]]]]]; try discriminate E. injection E as _ ->. split; [|cbn; lia].
      exists 60%Z, None. reflexivity.
    - intros n s H. assert (s = 2%N) as ->.
      { apply C71_file_cases in H. destruct H as [[_ E]|[[_ E]|[[_ E]|[[_ E]|[[_ E]|[_ E]]]]]]; congruence. }
      exists 20%Z, None. split; [reflexivity|]. split.
      + cbn. constructor; [|constructor; [intros []|constructor]]. intros [E|[]]. discriminate.
      + intros m v [E|[E|[]]]; injection E as <- _; reflexivity. }
  assert (H2 : forall s, is_object_stream C71_file s -> ~ is_length C71_file s).
  { intros s (n & H) Hl. apply HL in Hl. subst s. apply C71_file_cases in H. destruct H as [[_ E]|[[_ E]|[[_ E]|[[_ E]|[[_ E]|[_ E]]]]]]; congruence. }
  assert (H3 : forall t, 3 <= t -> C71_program t = []) by (intros t Ht; do 3 (destruct t as [|t]; [lia|]); reflexivity).
  assert (H4 : forall t n, In n (C71_program t) -> ~ is_length C71_file n).
  { intros t n Hin Hl. apply HL in Hl. subst n. do 3 (destruct t as [|t]; [cbn in Hin; repeat (destruct Hin as [Hin|Hin]; [discriminate|]); exact Hin|]). exact Hin. }
  split; [exact H1|]. split; [exact H2|]. split; [exact H3|]. split; [exact H4|].
  destruct (C71_all_answered_partial _ C71_file C71_parse C71_unpack C71_rank 0 C71_program 3 0 (start 0 C71_program) H1 H2 H3 H4 (runs_none _ _ _ _))
    as (k & st & Hr & Hf & Hg).
  exists k, st. split; [exact Hr|]. split; [exact Hf|]. split; [rewrite (Hg 0)|rewrite (Hg 1)]; reflexivity.
Qed.

Example C71_bad_case :
  C71_bad_file 7 = Some (Own 70 (Some 3%N)) /\ C71_bad_file 3 = Some (Inside 2) /\ C71_bad_file 2 = Some (Own 20 None)
  /\ fst (C71_parse 7 20) <> fst (C71_parse 7 70)
  /\ C71_bad_file 5 = Some (Own 50 (Some 6%N)) /\ C71_bad_file 6 = Some (Own 60 None)
  /\ (forall n, n = 8%N -> exists d k, C71_bad_file n = Some (Own d (Some k)) /\ k = 8%N)
  /\ (forall s q m v, In (m, v) (C71_unpack s q) -> m <> 8%N).
Proof.
  repeat split; try discriminate.
  - intros n ->. exists 80%Z, 8%N. split; reflexivity.
  - intros s q m v Hin. unfold C71_unpack in Hin. destruct (N.eqb s 2); [|destruct Hin]. destruct Hin as [E|[E|[]]]; injection E as <- _; discriminate.
Qed.

Print Assumptions C71_object_partial.
Print Assumptions C71_same_object_partial.
Print Assumptions C71_never_replaced_partial.
Print Assumptions C71_in_order.
Print Assumptions C71_no_deadlock_partial.
Print Assumptions C71_all_answered_partial.
Print Assumptions C71_one_thread.
Print Assumptions C71_deadlock_refuted.
Print Assumptions C71_deadlock_streams_refuted.
Print Assumptions C71_data_race_refuted.
Print Assumptions C71_cyclic_length_refuted.
Print Assumptions C71_length_in_object_stream_refuted.

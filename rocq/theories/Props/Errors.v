(** C66: after a failure a thread is told its own last error. *)
From Coq Require Import List NArith Bool Lia String Arith.
From Verif.Model Require Import Base Errors.
From Verif.Spec Require Import Errors.
From Verif.Proof Require Import Tac Errors.
Import ListNotations.
Local Open Scope N_scope.

(** Every interleaving of calls of any threads runs, every call returns the code of its own exception, and each thread finds the code of
    its own last exception, whatever other threads did in the meantime. *)
Theorem C66_own_last_error_partial : forall h, exists st,
  history h (fun _ => fresh) = Ok (map (fun p => ending_code (snd p)) h, st) /\
  (forall t, never_thrown t h -> s_error (st t) = 0 /\ s_length (st t) = 0%nat) /\
  (forall t e, last_thrown t h e -> s_error (st t) = ending_code e).
Proof.
  intros h. destruct (history_ok h (fun _ => fresh) (fun _ => fresh_whole)) as (st & E & _ & Hn & Hl). exists st. split; [exact E|]. split.
  - intros t H. rewrite (Hn t H). split; reflexivity.
  - intros t e H. apply (Hl t e H).
Qed.

(** A message below 255 characters comes back whole and terminated, in a buffer of the length the thread is told (or longer, the rest
    of which is left alone); a buffer that is too small is not touched. *)
Theorem C66_message_partial : forall h st cs t e text,
  history h (fun _ => fresh) = Ok (cs, st) -> last_thrown t h e -> says e text -> (List.length text < 255)%nat ->
  s_length (st t) = S (List.length text) /\
  (forall data size, (N.to_nat size <= List.length data)%nat -> N.of_nat (s_length (st t)) <= size ->
    last_message (st t) data size = Ok (code KSuccess, text ++ 0 :: skipn (S (List.length text)) data)) /\
  (forall data size, size < N.of_nat (s_length (st t)) -> last_message (st t) data size = Ok (code KGeneral, data)).
Proof.
  intros h st cs t e text E Hl (what & He & H0 & Hw) Hlen.
  destruct (history_ok h (fun _ => fresh) (fun _ => fresh_whole)) as (st' & E' & Hwh & _ & Hlast). rewrite E' in E. injection E as <- <-.
  specialize (Hlast t e Hl). specialize (Hwh t). destruct Hlast as (_ & R).
  assert (R' : s_length (st' t) = Nat.min (List.length text + 1) 255 /\ firstn (s_length (st' t)) (s_message (st' t)) = firstn 255 (text ++ [0])).
  { destruct He as [->|(k & ->)]; rewrite (c_string_says what text H0 Hw) in R; exact R. }
  destruct R' as (L & F). assert (L' : s_length (st' t) = S (List.length text)) by lia. split; [exact L'|]. split.
  - intros data size Hd Hs. unfold last_message. destruct (size <? N.of_nat (s_length (st' t))) eqn:Es; [lia|].
    unfold copy_bytes. replace (Nat.leb (s_length (st' t)) (List.length (s_message (st' t)))) with true by (symmetry; apply Nat.leb_le; destruct Hwh as (A & B); unfold max_message in *; lia).
    replace (Nat.leb (s_length (st' t)) (List.length data)) with true by (symmetry; apply Nat.leb_le; lia). cbn [andb rbind].
    rewrite F, L'. rewrite firstn_all2 by (rewrite app_length; cbn [List.length]; lia). rewrite <- app_assoc. reflexivity.
  - intros data size Hs. unfold last_message. destruct (size <? N.of_nat (s_length (st' t))) eqn:Es; [reflexivity|lia].
Qed.

(** A longer message is cut, and what is copied to the caller has no terminator: the caller is told 255, gives 255 bytes and gets 255
    characters. *)
Theorem C66_long_message_refuted : forall h st cs t e text data,
  history h (fun _ => fresh) = Ok (cs, st) -> last_thrown t h e -> says e text -> (255 <= List.length text)%nat -> List.length data = 255%nat ->
  s_length (st t) = 255%nat /\
  last_message (st t) data 255 = Ok (code KSuccess, firstn 255 text) /\ ~ In 0 (firstn 255 text).
Proof.
  intros h st cs t e text data E Hl (what & He & H0 & Hw) Hlen Hd.
  destruct (history_ok h (fun _ => fresh) (fun _ => fresh_whole)) as (st' & E' & Hwh & _ & Hlast). rewrite E' in E. injection E as <- <-.
  specialize (Hlast t e Hl). specialize (Hwh t). destruct Hlast as (_ & R).
  assert (R' : s_length (st' t) = Nat.min (List.length text + 1) 255 /\ firstn (s_length (st' t)) (s_message (st' t)) = firstn 255 (text ++ [0])).
  { destruct He as [->|(k & ->)]; rewrite (c_string_says what text H0 Hw) in R; exact R. }
  destruct R' as (L & F). assert (L' : s_length (st' t) = 255%nat) by lia. split; [exact L'|]. split.
  - unfold last_message. rewrite L'. destruct (255 <? N.of_nat 255) eqn:Es; [lia|]. unfold copy_bytes.
    replace (Nat.leb 255 (List.length (s_message (st' t)))) with true by (symmetry; apply Nat.leb_le; destruct Hwh as (A & B); unfold max_message in *; lia).
    replace (Nat.leb 255 (List.length data)) with true by (symmetry; apply Nat.leb_le; lia). cbn [andb rbind]. rewrite L' in F. rewrite F.
    rewrite skipn_all2 by lia. rewrite app_nil_r, firstn_app. replace (255 - List.length text)%nat with 0%nat by lia. rewrite firstn_O. rewrite app_nil_r. reflexivity.
  - intros X. apply H0. rewrite <- (firstn_skipn 255 text). apply in_or_app. left. exact X.
Qed.

(** A call that fails because of its parameters returns its code, but the last error stays that of an earlier call, or none: asking for
    the last error after such a failure gives the wrong answer. *)
Theorem C66_parameter_error_refuted : forall h st cs t c,
  history h (fun _ => fresh) = Ok (cs, st) -> c <> s_error (st t) -> exists st',
  history (h ++ [(t, Returns c)]) (fun _ => fresh) = Ok (cs ++ [c], st') /\ s_error (st' t) <> c /\ s_message (st' t) = s_message (st t).
Proof.
  intros h st cs t c E Hc. exists (fun x => if x =? t then st t else st x).
  assert (G : forall h s0 cs, history h s0 = Ok (cs, st) -> history (h ++ [(t, Returns c)]) s0 = Ok (cs ++ [c], fun x => if x =? t then st t else st x)).
  { clear. induction h as [|[t0 e0] h IH]; intros s0 cs E; cbn [history app] in *.
    - injection E as <- <-. cbn. reflexivity.
    - apply rbind_ok in E. destruct E as ([c0 s] & Ec & E). apply rbind_ok in E. destruct E as ([cs' st0] & E & X). injection X as <- <-.
      rewrite Ec. cbn [rbind]. rewrite (IH _ _ E). reflexivity. }
  split; [apply G, E|]. rewrite N.eqb_refl. split; [congruence|reflexivity].
Qed.

(** Every kind of error has its own code, and each code its own text, which is copied whole and terminated; other codes have none. *)
Theorem C66_codes : forall k k', code k = code k' -> k = k'.
Proof. intros k k'. destruct k, k'; intros H; try reflexivity; discriminate H. Qed.
Theorem C66_texts : forall k, exists text, ~ In 0 text /\ text <> [] /\
  printable_length (code k) = (code KSuccess, Some (N.of_nat (S (List.length text)))) /\
  (forall data size, (N.to_nat size <= List.length data)%nat -> N.of_nat (S (List.length text)) <= size ->
    printable_text (code k) data size = Ok (code KSuccess, text ++ 0 :: skipn (S (List.length text)) data)) /\
  (forall data size, size <= N.of_nat (List.length text) -> printable_text (code k) data size = Ok (code KGeneral, data)) /\
  (forall k', value_name (code k') = Some (text ++ [0]) -> k' = k).
Proof.
  intros k.
  assert (A : forall text, value_name (code k) = Some (text ++ [0]) -> 
    printable_length (code k) = (code KSuccess, Some (N.of_nat (S (List.length text)))) /\
    (forall data size, (N.to_nat size <= List.length data)%nat -> N.of_nat (S (List.length text)) <= size ->
      printable_text (code k) data size = Ok (code KSuccess, text ++ 0 :: skipn (S (List.length text)) data)) /\
    (forall data size, size <= N.of_nat (List.length text) -> printable_text (code k) data size = Ok (code KGeneral, data))).
  { intros text E. assert (L : List.length (text ++ [0]) = S (List.length text)) by (rewrite app_length; cbn [List.length]; lia).
    unfold printable_length, printable_text. rewrite E, L. split; [reflexivity|]. split; intros data size.
    - intros Hd Hs. destruct (size <? N.of_nat (S (List.length text))) eqn:Es; [lia|]. unfold copy_bytes. rewrite L, Nat.leb_refl.
      replace (Nat.leb (S (List.length text)) (List.length data)) with true by (symmetry; apply Nat.leb_le; lia). cbn [andb rbind].
      rewrite firstn_all2 by lia. rewrite <- app_assoc. reflexivity.
    - intros Hs. destruct (size <? N.of_nat (S (List.length text))) eqn:Es; [reflexivity|lia]. }
  assert (B : exists text, value_name (code k) = Some (text ++ [0]) /\ ~ In 0 text /\ text <> [] /\ forall k', value_name (code k') = Some (text ++ [0]) -> k' = k).
  { destruct k; (eexists; split; [cbv [value_name find value_names fst code N.eqb Pos.eqb option_map snd]; reflexivity|]);
      (split; [vm_compute; intuition discriminate|]); (split; [discriminate|]); intros k' H; destruct k'; try reflexivity; vm_compute in H; discriminate H. }
  destruct B as (text & E & H0 & Hne & Hk). exists text. destruct (A text E) as (A1 & A2 & A3). repeat split; assumption.
Qed.
Theorem C66_no_other_text : forall c data size, (forall k, code k <> c) ->
  printable_length c = (code KGeneral, None) /\ printable_text c data size = Ok (code KGeneral, data).
Proof.
  intros c data size H. assert (E : value_name c = None).
  { unfold value_name. destruct (find (fun e => fst e =? c) value_names) as [[c' n]|] eqn:F; [|reflexivity]. exfalso. apply find_some in F. destruct F as (Hin & Hc). cbn [fst] in Hc.
    unfold value_names in Hin. cbn [In] in Hin. repeat (destruct Hin as [X|Hin]; [apply (f_equal fst) in X; cbn [fst] in X; eapply H; rewrite X; apply N.eqb_eq, Hc|]). destruct Hin. }
  unfold printable_length, printable_text. rewrite E. split; reflexivity.
Qed.

(** Two threads: the first fails twice and makes a call with a wrong parameter, the second fails in between. *)
Definition two_threads : list (N * ending) :=
  [(1, Throws KObjectMissing (str "Object 5 0 R was not found")); (2, Throws KParseException (str "Unexpected token"));
   (1, ThrowsStd (str "stoi")); (2, Returns 1); (1, Returns 0)].
Example C66_case : last_thrown 1 two_threads (ThrowsStd (str "stoi")) /\ last_thrown 2 two_threads (Throws KParseException (str "Unexpected token")) /\
  says (ThrowsStd (str "stoi")) (str "stoi") /\
  exists st, history two_threads (fun _ => fresh) = Ok ([65539; 65540; 4294967295; 1; 0], st) /\ s_error (st 1) = 4294967295 /\ s_error (st 2) = 65540 /\ s_length (st 1) = 5%nat.
Proof.
  split; [|split; [|split]].
  - exists (firstn 2 two_threads), (skipn 3 two_threads). split; [reflexivity|]. split; [exact I|]. intros e' H. cbn in H. destruct H as [H|[H|[]]]; injection H; [discriminate|intros <-; intros []].
  - exists (firstn 1 two_threads), (skipn 2 two_threads). split; [reflexivity|]. split; [exact I|]. intros e' H. cbn in H. destruct H as [H|[H|[H|[]]]]; injection H; try discriminate; intros <- ; intros [].
  - exists (str "stoi"). split; [left; reflexivity|]. split; [vm_compute; intuition discriminate|left; reflexivity].
  - eexists. split; [vm_compute; reflexivity|]. repeat split; reflexivity.
Qed.
Example C66_long_case : exists st cs, let what := repeat 65 300 in last_thrown 1 [(1, ThrowsStd what)] (ThrowsStd what) /\ says (ThrowsStd what) what /\
  history [(1, ThrowsStd what)] (fun _ => fresh) = Ok (cs, st) /\ (255 <= List.length what)%nat.
Proof.
  destruct (history [(1, ThrowsStd (repeat 65 300))] (fun _ => fresh)) as [[cs st]| | |] eqn:E; [|vm_compute in E; discriminate..]. exists st, cs. cbv zeta. split; [|split; [|split; [exact E|]]].
  - exists [], []. split; [reflexivity|]. split; [exact I|intros e' []].
  - exists (repeat 65 300). split; [left; reflexivity|]. split; [|left; reflexivity]. intros X. apply repeat_spec in X. discriminate X.
  - rewrite repeat_length. lia.
Qed.

Print Assumptions C66_own_last_error_partial.
Print Assumptions C66_message_partial.
Print Assumptions C66_long_message_refuted.
Print Assumptions C66_parameter_error_refuted.
Print Assumptions C66_codes.
Print Assumptions C66_texts.
Print Assumptions C66_no_other_text.

From Coq Require Import List NArith ZArith Bool Lia Arith.
From Verif.Model Require Import Base Errors MemStream.
From Verif.Spec Require Import MemStream.
From Verif.Proof Require Import Tac Errors.
Import ListNotations.
Local Open Scope N_scope.

(** positions lie in the data *)
Definition sound (s : stream) : Prop := (m_get s <= List.length (m_data s))%nat /\ (m_put s <= List.length (m_data s))%nat.
Lemma nth_error_skipn : forall (A : Type) n (l : list A) i, nth_error (skipn n l) i = nth_error l (n + i).
Proof. intros A n. induction n as [|n IH]; intros [|x l] i; try reflexivity; cbn [skipn Nat.add nth_error]; [destruct i; reflexivity|apply IH]. Qed.
Lemma nth_error_firstn_in : forall (A : Type) n (l : list A) i, (i < n)%nat -> nth_error (firstn n l) i = nth_error l i.
Proof. intros A n. induction n as [|n IH]; intros [|x l] [|i] H; try lia; try reflexivity. cbn [firstn nth_error]. apply IH. lia. Qed.
Lemma put_length : forall p b old, (p <= List.length old)%nat -> List.length (put_bytes p b old) = Nat.max (List.length old) (p + List.length b).
Proof. intros p b old H. unfold put_bytes. rewrite !app_length, firstn_length, skipn_length. lia. Qed.
Lemma put_written : forall p b old, (p <= List.length old)%nat -> written p b old (put_bytes p b old).
Proof.
  intros p b old H. split; [apply put_length, H|]. intros i. unfold put_bytes. unfold bytes in *.
  assert (L : List.length (firstn p old) = p) by (rewrite firstn_length; lia).
  destruct (Nat.leb p i) eqn:E1; cbn [andb].
  - apply Nat.leb_le in E1. rewrite nth_error_app2 by lia. rewrite L. destruct (Nat.ltb i (p + List.length b)) eqn:E2.
    + apply Nat.ltb_lt in E2. rewrite nth_error_app1 by lia. reflexivity.
    + apply Nat.ltb_ge in E2. rewrite nth_error_app2 by lia. rewrite nth_error_skipn. f_equal. lia.
  - apply Nat.leb_gt in E1. rewrite nth_error_app1 by lia. apply nth_error_firstn_in. exact E1.
Qed.
Lemma written_unique : forall p b old x y, written p b old x -> written p b old y -> x = y.
Proof.
  intros p b old x y (_ & Hx) (_ & Hy). assert (E : forall i, nth_error x i = nth_error y i) by (intros i; rewrite Hx, Hy; reflexivity). clear Hx Hy.
  revert y E. induction x as [|a x IH]; intros [|c y] E; [reflexivity|specialize (E O); discriminate|specialize (E O); discriminate|].
  f_equal; [specialize (E O); injection E as ->; reflexivity|]. apply IH. intros i. apply (E (S i)).
Qed.

Lemma read_sound : forall n s, sound s -> sound (snd (raw_read n s)) /\ m_data (snd (raw_read n s)) = m_data s.
Proof.
  intros n s (H1 & H2). unfold raw_read, sound. destruct (good s); [|cbn; auto].
  cbv zeta. destruct (Nat.ltb _ n); cbn [snd with_state m_data m_get m_put]; (split; [split|]); auto; rewrite firstn_length, skipn_length; lia.
Qed.
Lemma write_sound : forall strict b s, sound s -> sound (raw_write strict b s).
Proof.
  intros strict b s (H1 & H2). unfold raw_write, sound. destruct (good s); cbn [with_state m_data m_get m_put]; [|auto]. rewrite put_length by exact H2. lia.
Qed.
Lemma to_buffer_sound : forall fuel acc s r s', sound s -> to_buffer fuel acc s = Ok (r, s') -> sound s'.
Proof.
  induction fuel as [|fuel IH]; intros acc s r s' Hs E; [discriminate|]. cbn [to_buffer] in E.
  destruct (read_sound piece s Hs) as (H1 & _). destruct (raw_read piece s) as [b s1]. cbn [snd] in H1.
  destruct b; [injection E as _ <-; exact H1|]. eapply IH; eassumption.
Qed.
Lemma piece_positive : (0 < piece)%nat.
Proof. unfold piece. lia. Qed.
Lemma to_buffer_ok : forall fuel acc s, sound s -> good s = true -> (List.length (m_data s) - m_get s < fuel)%nat ->
  exists s', to_buffer fuel acc s = Ok (acc ++ skipn (m_get s) (m_data s), s') /\ m_fail s' = true /\ m_data s' = m_data s.
Proof.
  induction fuel as [|fuel IH]; intros acc s Hs Hg Hf; [lia|]. pose proof piece_positive as Hp. cbn [to_buffer]. unfold raw_read. rewrite Hg. cbv zeta.
  set (rest := skipn (m_get s) (m_data s)). assert (Hl : List.length rest = (List.length (m_data s) - m_get s)%nat) by (unfold rest; apply skipn_length).
  remember (firstn piece rest) as b eqn:Eb. assert (Lb : List.length b = Nat.min piece (List.length rest)) by (rewrite Eb; apply firstn_length).
  destruct Hs as (Hs1 & Hs2). unfold good in Hg. apply andb_true_iff in Hg. destruct Hg as (Ge & Gf). apply negb_true_iff in Ge, Gf.
  destruct (Nat.ltb (List.length b) piece) eqn:Elt.
  - apply Nat.ltb_lt in Elt. assert (b = rest) by (rewrite Eb; apply firstn_all2; lia). subst rest. rewrite <- H.
    destruct b as [|x b0].
    + eexists. split; [rewrite app_nil_r; reflexivity|]. split; reflexivity.
    + destruct fuel as [|fuel]; [cbn [List.length] in Lb; lia|]. cbn [to_buffer]. unfold raw_read, good, with_state. cbn [m_eof m_fail negb andb]. eexists. split; [reflexivity|]. split; reflexivity.
  - apply Nat.ltb_ge in Elt. destruct b as [|x b0] eqn:Eb'; [cbn [List.length] in *; lia|]. rewrite <- Eb' in *.
    assert (Eq : (acc ++ b) ++ skipn (m_get s + List.length b) (m_data s) = acc ++ rest).
    { rewrite <- app_assoc. f_equal. unfold rest in *. rewrite Lb. replace (Nat.min piece (List.length (skipn (m_get s) (m_data s)))) with piece by lia.
      rewrite Eb. rewrite Nat.add_comm. rewrite <- (firstn_skipn piece (skipn (m_get s) (m_data s))) at 2. f_equal.
      clear. generalize (m_get s) at 1 2. intros g. revert g. generalize (m_data s). intros l g. revert l. induction g as [|g IH]; intros l; [rewrite Nat.add_0_r; reflexivity|]. rewrite Nat.add_succ_r. destruct l as [|x l]; [rewrite !skipn_nil; reflexivity|]. cbn [skipn]. apply IH. }
    destruct (IH (acc ++ b) {| m_data := m_data s; m_get := m_get s + List.length b; m_put := m_put s; m_eof := m_eof s; m_fail := m_fail s |}) as (s' & E & F & D).
    + split; cbn [m_data m_get m_put]; lia.
    + unfold good. cbn [m_eof m_fail]. rewrite Ge, Gf. reflexivity.
    + cbn [m_data m_get]. lia.
    + exists s'. cbn [m_data m_get] in E, D. rewrite Eq in E. split; [exact E|]. split; [exact F|exact D].
Qed.
Lemma to_buffer_stuck : forall fuel acc s, good s = false -> to_buffer (S fuel) acc s = Ok (acc, with_state (m_eof s) true s).
Proof. intros fuel acc s Hg. cbn [to_buffer]. unfold raw_read. rewrite Hg. reflexivity. Qed.

Lemma apply_ok : forall strict o s, sound s -> no_negative_read o -> exists a s', apply strict o s = Ok (a, s') /\ sound s'.
Proof.
  intros strict o s Hs Hn. destruct o; cbn [apply no_negative_read] in *; try solve [eexists _, _; split; [reflexivity|try apply write_sound; exact Hs]].
  - destruct (n <? 0)%Z eqn:E; [lia|]. destruct (read_sound (Z.to_nat n) s Hs) as (H & _). destruct (raw_read (Z.to_nat n) s) as [b s']. eexists _, _. split; [reflexivity|exact H].
  - eexists _, _. split; [reflexivity|]. unfold set_input_position, inside. destruct Hs as (H1 & H2). destruct (z =? -1)%Z; [split; assumption|].
    destruct ((0 <=? z)%Z && (z <=? Z.of_nat (List.length (m_data s)))%Z) eqn:E; [|split; assumption]. split; cbn [m_get m_put m_data]; lia.
  - eexists _, _. split; [reflexivity|]. unfold set_output_position, inside. destruct Hs as (H1 & H2). destruct (m_fail s); [split; assumption|].
    destruct ((0 <=? z)%Z && (z <=? Z.of_nat (List.length (m_data s)))%Z) eqn:E; [|split; assumption]. split; cbn [m_get m_put m_data]; lia.
  - destruct (good s) eqn:Hg.
    + destruct (to_buffer_ok (S (S (List.length (m_data s)))) [] s Hs Hg) as (s' & E & _); [lia|]. rewrite E. cbn [rbind]. eexists _, _. split; [reflexivity|]. eapply to_buffer_sound; eassumption.
    + rewrite to_buffer_stuck by exact Hg. cbn [rbind]. eexists _, _. split; [reflexivity|exact Hs].
Qed.
Lemma apply_all_ok : forall strict l s, sound s -> Forall no_negative_read l -> exists r s', apply_all strict l s = Ok (r, s') /\ sound s'.
Proof.
  induction l as [|o l IH]; intros s Hs Hl; [eexists _, _; split; [reflexivity|exact Hs]|]. inversion Hl as [|? ? Ho Hl']; subst. cbn [apply_all].
  destruct (apply_ok strict o s Hs Ho) as (a & s1 & E & H1). rewrite E. cbn [rbind]. destruct (IH s1 H1 Hl') as (r & s2 & E2 & H2). rewrite E2. cbn [rbind]. eexists _, _. split; [reflexivity|exact H2].
Qed.
Lemma apply_sound : forall strict o s a s', sound s -> apply strict o s = Ok (a, s') -> sound s'.
Proof.
  intros strict o s a s' Hs E. destruct (match o with Read n => (n <? 0)%Z | _ => false end) eqn:En.
  - destruct o; try discriminate. cbn [apply] in E. rewrite En in E. discriminate.
  - destruct (apply_ok strict o s Hs) as (a' & s'' & E' & H); [destruct o; cbn; try exact I; lia|]. rewrite E' in E. injection E as _ <-. exact H.
Qed.
Lemma apply_all_sound : forall strict l s r s', sound s -> apply_all strict l s = Ok (r, s') -> sound s'.
Proof.
  induction l as [|o l IH]; intros s r s' Hs E; cbn [apply_all] in E; [injection E as _ <-; exact Hs|].
  apply rbind_ok in E. destruct E as ([a s1] & E1 & E). apply rbind_ok in E. destruct E as ([r2 s2] & E2 & X). injection X as _ <-. eapply IH; [|exact E2]. eapply apply_sound; eassumption.
Qed.

(** a good stream behaves like memory as long as the calls stay within the data *)
Lemma within_step : forall strict o s, sound s -> good s = true -> within o (memory_of s) ->
  exists a s', apply strict o s = Ok (a, s') /\ sound s' /\ good s' = true /\ step o (memory_of s) a (memory_of s').
Proof.
  intros strict o s Hs Hg Hw. destruct o; cbn [apply within step memory_of bytes_of read_at write_at] in *.
  - destruct (n <? 0)%Z eqn:En; [lia|]. unfold raw_read. rewrite Hg. cbv zeta.
    remember (firstn (Z.to_nat n) (skipn (m_get s) (m_data s))) as b eqn:Eb.
    assert (Lb : List.length b = Z.to_nat n) by (rewrite Eb, firstn_length, skipn_length; lia).
    replace (Nat.ltb (List.length b) (Z.to_nat n)) with false by (symmetry; apply Nat.ltb_ge; lia).
    eexists _, _. split; [reflexivity|]. destruct Hs as (H1 & H2). split; [split; cbn [m_get m_put m_data]; lia|]. split; [exact Hg|].
    exists b. split; [reflexivity|]. split; [lia|]. split; [|reflexivity]. intros i Hi. rewrite Eb, nth_error_firstn_in by lia. apply nth_error_skipn.
  - eexists _, _. split; [reflexivity|]. split; [exact Hs|]. split; [exact Hg|]. unfold input_position. unfold good in Hg. apply andb_true_iff in Hg. destruct Hg as (Ge & Gf). apply negb_true_iff in Ge, Gf. rewrite Ge, Gf. split; reflexivity.
  - eexists _, _. split; [reflexivity|]. unfold set_input_position, inside. replace (z =? -1)%Z with false by lia.
    replace ((0 <=? z)%Z && (z <=? Z.of_nat (List.length (m_data s)))%Z) with true by lia. destruct Hs as (H1 & H2). split; [split; cbn [m_get m_put m_data]; lia|]. split; [reflexivity|]. split; reflexivity.
  - eexists _, _. split; [reflexivity|]. split; [exact Hs|]. split; [exact Hg|]. unfold output_position. unfold good in Hg. apply andb_true_iff in Hg. destruct Hg as (Ge & Gf). apply negb_true_iff in Ge, Gf. rewrite Gf. split; reflexivity.
  - eexists _, _. split; [reflexivity|]. unfold set_output_position, inside. assert (G := Hg). unfold good in G. apply andb_true_iff in G. destruct G as (Ge & Gf). apply negb_true_iff in Ge, Gf. rewrite Gf.
    replace ((0 <=? z)%Z && (z <=? Z.of_nat (List.length (m_data s)))%Z) with true by lia. destruct Hs as (H1 & H2). split; [split; cbn [m_get m_put m_data]; lia|]. split; [unfold good; cbn [m_eof m_fail]; rewrite Ge; reflexivity|]. split; reflexivity.
  - eexists _, _. split; [reflexivity|]. split; [apply write_sound, Hs|]. unfold raw_write. rewrite Hg. split; [exact Hg|]. split; [reflexivity|].
    exists (c_string s0), (put_bytes (m_put s) (c_string s0) (m_data s)). split.
    { clear. induction s0 as [|b s0 IH]; [left; reflexivity|]. cbn [c_string]. destruct (b =? 0) eqn:E; [right; exists s0; assert (b = 0) by lia; subst b; reflexivity|].
      destruct IH as [IH|(rest & IH)]; [left; rewrite <- IH; reflexivity|right; exists rest]. cbn [app]. rewrite <- IH. reflexivity. }
    split; [apply c_string_no0|]. split; [apply put_written, Hs|reflexivity].
  - eexists _, _. split; [reflexivity|]. split; [apply write_sound, Hs|]. unfold raw_write. rewrite Hg. split; [exact Hg|]. split; [reflexivity|].
    exists (put_bytes (m_put s) b (m_data s)). split; [apply put_written, Hs|reflexivity].
  - eexists _, _. split; [reflexivity|]. split; [exact Hs|]. split; [exact Hg|]. split; reflexivity.
  - destruct Hw.
Qed.
Lemma within_run : forall strict l s, sound s -> good s = true -> stays_within l (memory_of s) ->
  exists r s', apply_all strict l s = Ok (r, s') /\ run l (memory_of s) r (memory_of s').
Proof.
  induction l as [|o l IH]; intros s Hs Hg Hl; [eexists _, _; split; [reflexivity|constructor]|]. inversion Hl as [|? ? ? Hw Hn]; subst. cbn [apply_all].
  destruct (within_step strict o s Hs Hg Hw) as (a & s1 & E & H1 & G1 & St). rewrite E. cbn [rbind].
  destruct (IH s1 H1 G1 (Hn _ _ St)) as (r & s2 & E2 & R). rewrite E2. cbn [rbind]. eexists _, _. split; [reflexivity|]. econstructor; eassumption.
Qed.

Lemma stuck_step : forall strict o s a s', m_fail s = true -> ~ starts_over o s -> apply strict o s = Ok (a, s') ->
  m_fail s' = true /\ m_data s' = m_data s /\ gives_nothing o a.
Proof.
  intros strict o s a s' Hf Hn E. assert (Hg : good s = false) by (unfold good; rewrite Hf; apply andb_false_r).
  destruct o; cbn [apply gives_nothing] in *.
  - destruct (n <? 0)%Z; [discriminate|]. unfold raw_read in E. rewrite Hg in E. injection E as <- <-. repeat split.
  - injection E as <- <-. unfold input_position. rewrite Hf. destruct (m_eof s); repeat split; exact Hf.
  - injection E as <- <-. unfold set_input_position, inside. destruct (z =? -1)%Z; [split; [exact Hf|split; reflexivity]|].
    destruct ((0 <=? z)%Z && (z <=? Z.of_nat (List.length (m_data s)))%Z) eqn:Ei; [|repeat split]. exfalso. apply Hn. exists z. split; [reflexivity|lia].
  - injection E as <- <-. unfold output_position. rewrite Hf. repeat split; exact Hf.
  - injection E as <- <-. unfold set_output_position. rewrite Hf. repeat split; exact Hf.
  - injection E as <- <-. unfold raw_write. rewrite Hg. cbn [with_state m_fail m_data]. rewrite Hf. repeat split.
  - injection E as <- <-. unfold raw_write. rewrite Hg. cbn [with_state m_fail m_data]. rewrite Hf. repeat split.
  - injection E as <- <-. repeat split; exact Hf.
  - rewrite to_buffer_stuck in E by exact Hg. cbn [rbind] in E. injection E as <- <-. repeat split.
Qed.
Lemma stuck_all : forall strict l s r s', m_fail s = true -> (forall o, In o l -> ~ starts_over o s) -> apply_all strict l s = Ok (r, s') ->
  m_fail s' = true /\ m_data s' = m_data s /\ Forall2 gives_nothing l r.
Proof.
  induction l as [|o l IH]; intros s r s' Hf Hn E; cbn [apply_all] in E; [injection E as <- <-; repeat split; [exact Hf|constructor]|].
  apply rbind_ok in E. destruct E as ([a s1] & E1 & E). apply rbind_ok in E. destruct E as ([r2 s2] & E2 & X). injection X as <- <-.
  destruct (stuck_step strict o s a s1 Hf) as (F1 & D1 & G1); [apply Hn; left; reflexivity|exact E1|].
  destruct (IH s1 r2 s2 F1) as (F2 & D2 & G2); [|exact E2|].
  - intros o' Ho'. unfold starts_over. rewrite D1. apply Hn. right. exact Ho'.
  - split; [exact F2|]. split; [congruence|]. constructor; assumption.
Qed.

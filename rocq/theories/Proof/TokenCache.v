(** The position cache is not visible (Model/TokenCache.v). *)
From Coq Require Import List NArith ZArith Bool Lia String.
From Coq Require Import List.
From Verif.Model Require Import Base Char Numbers Token TokenCache.
From Verif.Spec Require Import TokenCache.
From Verif.Proof Require Import Tac Token.
Import ListNotations.
Local Open Scope N_scope.

Definition tail_of (r s : bytes) : Prop := exists p, s = p ++ r.
Lemma tail_refl : forall s, tail_of s s. Proof. intros s. now exists []. Qed.
Lemma tail_nil : forall s, tail_of [] s. Proof. intros s. exists s. now rewrite app_nil_r. Qed.
Lemma tail_cons : forall c r s, tail_of r s -> tail_of r (c :: s).
Proof. intros c r s (p & ->). now exists (c :: p). Qed.
Lemma tail_span : forall {A} (f : A -> bool) l p r, span f l = (p, r) -> l = p ++ r.
Proof. intros A f l p r H. apply span_spec in H. tauto. Qed.

(** the outcome of a read: a value and a tail of the input, or an exception *)
Definition good {A} (s : bytes) (o : res (A * bytes)) : Prop :=
  match o with Ok (_, rest) => tail_of rest s | Throw _ => True | _ => False end.
Lemma good_bind : forall {A B} (s : bytes) (o : res (A * bytes)) (f : A -> B), good s o -> good s (do '(a, r) <- o;; Ok (f a, r)).
Proof. intros A B s [[a r]| | |] f H; cbn in *; auto. Qed.
Lemma good_cons : forall {A} c (s : bytes) (o : res (A * bytes)), good s o -> good (c :: s) o.
Proof. intros A c s [[a r]| | |] H; cbn in *; auto. now apply tail_cons. Qed.
Lemma stoi_total : forall b l, (exists v, stoi b l = Ok v) \/ exists e, stoi b l = Throw e.
Proof. intros b l. unfold stoi. destruct (strtol b l) as [v|]; [|right; eauto]. cif; eauto. Qed.
Lemma uchar_total : forall v, (exists c, to_uchar v = Ok c) \/ exists e, to_uchar v = Throw e.
Proof. intros v. unfold to_uchar. cif; [right; eauto|]. cif; eauto. Qed.
Lemma name_good : forall k s, (List.length s <= k)%nat -> good s (read_name s).
Proof.
  induction k as [|k IH]; intros s Hk; destruct s as [|c t]; cbn in Hk; try lia; try apply tail_refl.
  cbn [read_name]. destruct (is_regular c); [|apply tail_refl]. destruct (c =? 35).
  - destruct t as [|a [|b t']].
    + destruct (stoi_total 16 []) as [(v & ->)|(e & ->)]; [|exact I]. cbn [rbind]. destruct (uchar_total v) as [(x & ->)|(e & ->)]; [apply tail_nil|exact I].
    + destruct (stoi_total 16 [a]) as [(v & ->)|(e & ->)]; [|exact I]. cbn [rbind]. destruct (uchar_total v) as [(x & ->)|(e & ->)]; [apply tail_nil|exact I].
    + destruct (stoi_total 16 [a; b]) as [(v & ->)|(e & ->)]; [|exact I]. cbn [rbind]. destruct (uchar_total v) as [(x & ->)|(e & ->)]; [|exact I]. cbn [rbind].
      apply (good_bind _ _ (fun cs => x :: cs)). do 3 apply good_cons. apply IH. cbn in *; lia.
  - apply (good_bind _ _ (fun cs => c :: cs)). apply good_cons. apply IH. lia.
Qed.
Lemma hex_good : forall s, good s (read_hex s).
Proof.
  induction s as [|c t IH]; cbn [read_hex]; [apply tail_refl|]. destruct (c =? 62); [apply tail_cons, tail_refl|].
  destruct (is_white c); [now apply good_cons|]. destruct (is_numeric c || is_alpha c); [|exact I].
  apply (good_bind _ _ (fun cs => c :: cs)). now apply good_cons.
Qed.
Lemma literal_good : forall s n b, good s (read_literal n b s).
Proof.
  induction s as [|c t IH]; intros n b; cbn [read_literal]; [exact I|]. destruct b.
  - apply (good_bind _ _ (fun cs => c :: cs)). apply good_cons, IH.
  - destruct ((c =? 41) && (n =? 1)); [apply tail_cons, tail_refl|]. apply (good_bind _ _ (fun cs => c :: cs)). apply good_cons, IH.
Qed.
Lemma unknown_tail : forall d c s tk rest, read_unknown d c s = (tk, rest) -> tail_of rest s.
Proof.
  intros d c s tk rest H. unfold read_unknown in H.
  destruct (is_numeric c || (c =? 43) || (c =? 45) || (c =? 46)).
  - destruct (span is_numeric s) as [ds s1] eqn:E. apply tail_span in E.
    destruct (c =? 46); [inversion H; subst; now exists ds|].
    destruct s1 as [|x s2]; [inversion H; subst; apply tail_nil|].
    destruct (N.eq_dec x 46) as [->|Hx].
    + destruct (span is_numeric s2) as [ds2 s3] eqn:E2. apply tail_span in E2. inversion H; subst. exists (ds ++ 46 :: ds2). now rewrite <- app_assoc.
    + assert (H' : ((TyInt, c :: ds), x :: s2) = (tk, rest)).
      { destruct x as [|p]; [exact H|]. do 6 (destruct p as [p|p|]; try exact H). congruence. }
      inversion H'; subst. now exists ds.
  - destruct (span is_regular s) as [cs s1] eqn:E. apply tail_span in E. inversion H; subst. now exists cs.
Qed.
Lemma token_good : forall d k s comment, (List.length s <= k)%nat -> good s (read_token_aux d comment s).
Proof.
  intros d. induction k as [|k IH]; intros s comment Hk; destruct s as [|c t]; cbn in Hk; try lia; try apply tail_refl.
  cbn [read_token_aux]. destruct comment.
  { destruct (c =? 13).
    - destruct (match10 (A := res (token * bytes)) t (fun t' => read_token_aux d false t') (read_token_aux d false t)) as [(t' & Et' & E)|[_ E]]; rewrite E.
      + rewrite Et' in *. do 2 apply good_cons. apply IH. cbn in *; lia.
      + apply good_cons, IH. lia.
    - destruct (c =? 10); apply good_cons, IH; lia. }
  destruct ((c =? 32) || (c =? 12) || (c =? 9) || (c =? 0)); [apply good_cons, IH; lia|].
  destruct (c =? 37); [apply good_cons, IH; lia|].
  destruct (c =? 10); [apply tail_cons, tail_refl|].
  destruct (c =? 13).
  { destruct (match10 (A := res (token * bytes)) t (fun t' => Ok ((TyEol, @nil N), t')) (Ok ((TyEol, []), t))) as [(t' & Et' & E)|[_ E]]; rewrite E.
    - rewrite Et'. do 2 apply tail_cons. apply tail_refl.
    - apply tail_cons, tail_refl. }
  destruct (c =? 62).
  { destruct (match62 (A := res (token * bytes)) t (fun t' => Ok ((TyDictEnd, @nil N), t')) (Throw EGeneral)) as [(t' & Et' & E)|E]; rewrite E; [|exact I].
    rewrite Et'. do 2 apply tail_cons. apply tail_refl. }
  destruct (c =? 60).
  { destruct (match60_62 (A := res (token * bytes)) t (fun t' => Ok ((TyDictBegin, @nil N), t')) (fun t' => Ok ((TyHex, @nil N), t'))
       (do '(cs, rest0) <- read_hex t;; Ok ((TyHex, cs), rest0))) as [(t' & Et' & E)|[(t' & Et' & E)|E]]; rewrite E.
    - rewrite Et'. do 2 apply tail_cons. apply tail_refl.
    - rewrite Et'. do 2 apply tail_cons. apply tail_refl.
    - apply (good_bind _ _ (fun cs => (TyHex, cs))). apply good_cons, hex_good. }
  destruct (c =? 91); [apply tail_cons, tail_refl|]. destruct (c =? 93); [apply tail_cons, tail_refl|].
  destruct (c =? 47); [apply (good_bind _ _ (fun cs => (TyName, cs))); apply good_cons; eapply name_good; reflexivity|].
  destruct (c =? 40); [apply (good_bind _ _ (fun cs => (TyLit, cs))); apply good_cons, literal_good|].
  destruct (read_unknown d c t) as [tk rest] eqn:E. apply tail_cons. eapply unknown_tail; exact E.
Qed.
Lemma read_good : forall d s, good s (read_token d s).
Proof. intros d s. eapply token_good. reflexivity. Qed.

Local Open Scope Z_scope.
Lemma text_at_stands : forall text p s, stands_for text p s -> text_at text p = s.
Proof.
  intros text p s [(-> & ->)|(Hp & before & -> & Hb)]; [reflexivity|]. unfold text_at, bad_offset.
  destruct (p =? -1) eqn:E; [lia|]. replace (Z.to_nat p) with (List.length before) by lia. rewrite skipn_app, skipn_all, PeanoNat.Nat.sub_diag. reflexivity.
Qed.
Lemma stands_text_at : forall text p, p = -1 \/ 0 <= p <= Z.of_nat (List.length text) -> stands_for text p (text_at text p).
Proof.
  intros text p [-> | Hp]; [left; split; reflexivity|]. right. split; [exact Hp|]. unfold text_at, bad_offset.
  destruct (p =? -1) eqn:E; [lia|]. exists (firstn (Z.to_nat p) text). split; [symmetry; apply firstn_skipn|]. rewrite firstn_length. lia.
Qed.
Lemma stands_tail : forall text p s, stands_for text p s -> tail_of s text.
Proof. intros text p s [(_ & ->)|(_ & b & -> & _)]; [apply tail_nil|now exists b]. Qed.
Lemma tail_trans : forall a b c, tail_of a b -> tail_of b c -> tail_of a c.
Proof. intros a b c (p & ->) (q & ->). exists (q ++ p). now rewrite app_assoc. Qed.

(** reading behind the cache *)
Lemma lex_ok : forall d text p s tk after, stands_for text p s -> read_token d s = Ok (tk, after) ->
  exists p', lex d text p = (Ok tk, p') /\ stands_for text p' after.
Proof.
  intros d text p s tk after Hp E. unfold lex. rewrite (text_at_stands _ _ _ Hp), E. eexists. split; [reflexivity|].
  assert (Ht : tail_of after text).
  { eapply tail_trans; [|eapply stands_tail; exact Hp]. pose proof (read_good d s) as Hg. rewrite E in Hg. exact Hg. }
  destruct Ht as (b & ->). destruct after as [|c after].
  - destruct (saw_end tk (b ++ [])); [now left|]. right. split; [lia|]. exists b. split; [reflexivity|]. now rewrite app_nil_r.
  - right. split; [lia|]. exists b. split; [reflexivity|]. rewrite app_length. lia.
Qed.
Lemma lex_throw : forall d text p s e, stands_for text p s -> read_token d s = Throw e -> exists p', lex d text p = (Throw e, p').
Proof. intros d text p s e Hp E. unfold lex. rewrite (text_at_stands _ _ _ Hp), E. eauto. Qed.
Lemma lex_cases : forall d text p s, stands_for text p s ->
  (exists tk after p', read_token d s = Ok (tk, after) /\ lex d text p = (Ok tk, p') /\ stands_for text p' after) \/
  (exists e p', read_token d s = Throw e /\ lex d text p = (Throw e, p')).
Proof.
  intros d text p s Hp. pose proof (read_good d s) as Hg. destruct (read_token d s) as [[tk after]|e| |] eqn:E; try contradiction.
  - left. destruct (lex_ok d text p s tk after Hp E) as (p' & E' & Hs). exists tk, after, p'. auto.
  - right. destruct (lex_throw d text p s e Hp E) as (p' & E'). exists e, p'. auto.
Qed.

(** every entry of the cache is what a read at that position gives *)
Definition cache_true (d : dictionary) (text : bytes) (c : cache) : Prop :=
  forall p tk adv, In (p, (tk, adv)) c -> lex d text p = (Ok tk, adv).
Lemma cache_find_in : forall c p i, cache_find c p = Some i -> In (p, i) c.
Proof.
  induction c as [|[q j] c IH]; intros p i H; [discriminate|]. cbn in H. destruct (q =? p) eqn:E; [|right; now apply IH].
  apply Z.eqb_eq in E. injection H as ->. subst. now left.
Qed.
Lemma cache_set_in : forall c p i x, In x (cache_set c p i) -> x = (p, i) \/ In x c.
Proof.
  induction c as [|[q j] c IH]; intros p i x H; cbn [cache_set] in H; [destruct H as [<-|[]]; now left|].
  destruct (p =? q) eqn:E.
  - apply Z.eqb_eq in E. destruct H as [<-|H]; [left; congruence|right; now right].
  - destruct (p <? q); [destruct H as [<-|H]; [now left|now right]|]. destruct H as [<-|H]; [right; now left|].
    apply IH in H. destruct H as [H|H]; [now left|right; now right].
Qed.
Lemma cache_set_length : forall c p i, (List.length (cache_set c p i) <= S (List.length c))%nat.
Proof.
  induction c as [|[q j] c IH]; intros p i; cbn [cache_set]; [cbn; lia|]. destruct (p =? q); [cbn; lia|]. destruct (p <? q); [cbn; lia|]. cbn. specialize (IH p i). lia.
Qed.

Lemma read_one_spec : forall d text r s, cache_true d text (known r) -> stands_for text (position r) s ->
  (exists tk after p', read_token d s = Ok (tk, after) /\ read_one d text r = (Ok tk, {| position := p'; known := known r |}) /\ stands_for text p' after) \/
  (exists e p', read_token d s = Throw e /\ read_one d text r = (Throw e, {| position := p'; known := known r |})).
Proof.
  intros d text r s Hc Hp. unfold read_one. destruct (cache_find (known r) (position r)) as [[tk adv]|] eqn:E.
  - apply cache_find_in, Hc in E. destruct (lex_cases d text _ s Hp) as [(tk' & after & p' & E1 & E2 & E3)|(e & p' & E1 & E2)]; rewrite E in E2; [|discriminate].
    injection E2 as -> ->. left. exists tk', after, p'. auto.
  - destruct (lex_cases d text _ s Hp) as [(tk' & after & p' & E1 & E2 & E3)|(e & p' & E1 & E2)]; rewrite E2; [left; exists tk', after, p'; auto|right; exists e, p'; auto].
Qed.
Lemma tl_in : forall {A} (l : list A) x, In x (tl l) -> In x l.
Proof. intros A [|y l] x H; [destruct H|now right]. Qed.
Lemma peek_one_spec : forall d text r s, cache_true d text (known r) -> (List.length (known r) <= cache_size)%nat -> stands_for text (position r) s ->
  exists r', (List.length (known r') <= cache_size)%nat /\ cache_true d text (known r') /\
  ((exists tk after, read_token d s = Ok (tk, after) /\ peek_one d text r = (Ok tk, r') /\ position r' = position r) \/
   (exists e, read_token d s = Throw e /\ peek_one d text r = (Throw e, r'))).
Proof.
  intros d text r s Hc Hn Hp. unfold peek_one. destruct (cache_find (known r) (position r)) as [[tk adv]|] eqn:E.
  - exists r. split; [exact Hn|]. split; [exact Hc|]. left. apply cache_find_in, Hc in E.
    destruct (lex_cases d text _ s Hp) as [(tk' & after & p' & E1 & E2 & E3)|(e & p' & E1 & E2)]; rewrite E in E2; [|discriminate].
    injection E2 as -> ->. exists tk', after. auto.
  - destruct (read_one_spec d text r s Hc Hp) as [(tk & after & p' & E1 & E2 & E3)|(e & p' & E1 & E2)]; rewrite E2.
    + eexists. split; [|split; [|left; exists tk, after; split; [exact E1|split; reflexivity]]]; cbn [known position].
      * pose proof (cache_set_length (if (List.length (known r) =? cache_size)%nat then tl (known r) else known r) (position r) (tk, p')) as Hl.
        destruct (List.length (known r) =? cache_size)%nat eqn:Eq.
        -- apply PeanoNat.Nat.eqb_eq in Eq. destruct (known r) as [|x l]; cbn [tl List.length] in *; [unfold cache_size in Eq; lia|lia].
        -- apply PeanoNat.Nat.eqb_neq in Eq. lia.
      * intros q tq aq H. apply cache_set_in in H. destruct H as [H|H].
        -- injection H as -> -> ->. unfold read_one in E2. rewrite E in E2. destruct (lex d text (position r)) as [o po]. injection E2 as -> ->. reflexivity.
        -- apply Hc. destruct (List.length (known r) =? cache_size)%nat; [now apply tl_in|exact H].
    + eexists. split; [|split; [|right; exists e; split; [exact E1|reflexivity]]]; cbn [known]; assumption.
Qed.

Definition sound_reader (d : dictionary) (text : bytes) (r : reader) : Prop :=
  cache_true d text (known r) /\ (List.length (known r) <= cache_size)%nat.

Lemma serve_spec : forall d text r s q, sound_reader d text r -> stands_for text (position r) s -> in_text text q ->
  exists a r', serve d text r q = (a, r') /\ sound_reader d text r' /\
  ((exists s', answered d text s q a s' /\ stands_for text (position r') s') \/ refused d s q a).
Proof.
  intros d text r s q (Hc & Hn) Hp Hq. destruct q as [| | |ty| |p]; cbn [serve].
  - destruct (peek_one_spec d text r s Hc Hn Hp) as (r' & Hn' & Hc' & [(tk & after & E1 & E2 & E3)|(e & E1 & E2)]); rewrite E2; eexists _, r'; (split; [reflexivity|split; [split; assumption|]]).
    + left. exists s. split; [econstructor; exact E1|]. now rewrite E3.
    + right. now constructor.
  - destruct (peek_one_spec d text r s Hc Hn Hp) as (r' & Hn' & Hc' & [(tk & after & E1 & E2 & E3)|(e & E1 & E2)]); rewrite E2; eexists _, r'; (split; [reflexivity|split; [split; assumption|]]).
    + left. exists s. split; [econstructor; exact E1|]. now rewrite E3.
    + right. now constructor.
  - destruct (read_one_spec d text r s Hc Hp) as [(tk & after & p' & E1 & E2 & E3)|(e & p' & E1 & E2)]; rewrite E2; eexists _, _; (split; [reflexivity|split; [split; assumption|]]).
    + left. exists after. split; [econstructor; exact E1|exact E3].
    + right. now constructor.
  - destruct (read_one_spec d text r s Hc Hp) as [(tk & after & p' & E1 & E2 & E3)|(e & p' & E1 & E2)]; rewrite E2; eexists _, _; (split; [reflexivity|split; [split; assumption|]]); cbn [rbind].
    + assert (Ht : ttype_eqb (fst tk) ty = true <-> fst tk = ty).
      { destruct (fst tk), ty; cbn [ttype_eqb]; try (split; [discriminate|congruence]); try tauto.
        assert (Hb : forall a b, bytes_eqb a b = true <-> a = b).
        { clear. induction a as [|x a IH]; destruct b as [|y b]; cbn [bytes_eqb]; try (split; congruence).
          rewrite andb_true_iff, N.eqb_eq, IH. split; [intros (-> & ->); reflexivity|intros H; injection H as -> ->; auto]. }
        rewrite Hb. split; congruence. }
      destruct (ttype_eqb (fst tk) ty) eqn:Et.
      * apply proj1 in Ht. specialize (Ht eq_refl). subst ty. left. exists after. split; [econstructor; exact E1|exact E3].
      * right. econstructor; [exact E1|]. intros H. apply Ht in H. discriminate.
    + right. now constructor.
  - exists (APosition (position r)), r. split; [reflexivity|]. split; [split; assumption|]. left. exists s. split; [now constructor|exact Hp].
  - eexists _, _. split; [reflexivity|]. split; [split; assumption|]. left. exists (text_at text p). split; [constructor|]; now apply stands_text_at.
Qed.

Lemma serve_all_spec : forall d text qs r s, sound_reader d text r -> stands_for text (position r) s -> Forall (in_text text) qs ->
  exists al r', serve_all d text r qs = (al, r') /\ answers d text s qs al.
Proof.
  intros d text qs. induction qs as [|q qs IH]; intros r s Hr Hp Hq.
  - exists [], r. split; [reflexivity|constructor].
  - inversion Hq as [|? ? H1 H2]; subst. destruct (serve_spec d text r s q Hr Hp H1) as (a & r1 & E & Hr1 & H). cbn [serve_all]. rewrite E.
    destruct H as [(s' & Ha & Hp')|Hf].
    + destruct (IH r1 s' Hr1 Hp' H2) as (al & r2 & E2 & Hal). rewrite E2. exists (a :: al), r2. split; [reflexivity|]. eapply as_cons; eassumption.
    + destruct (serve_all d text r1 qs) as [al r2]. exists (a :: al), r2. split; [reflexivity|]. now apply as_fail.
Qed.

(** the cache stays small whatever happens *)
Lemma peek_small : forall d text r, (List.length (known r) <= cache_size)%nat -> (List.length (known (snd (peek_one d text r))) <= cache_size)%nat.
Proof.
  intros d text r H. unfold peek_one. destruct (cache_find (known r) (position r)) as [[tk adv]|] eqn:E; [exact H|].
  assert (Hk : forall o r', read_one d text r = (o, r') -> known r' = known r).
  { intros o r' Er. unfold read_one in Er. rewrite E in Er. destruct (lex d text (position r)). injection Er as <- <-. reflexivity. }
  destruct (read_one d text r) as [o r'] eqn:Er. specialize (Hk o r' eq_refl). destruct o as [tk| | |]; cbn [snd known]; try (rewrite Hk; exact H).
  pose proof (cache_set_length (if (List.length (known r) =? cache_size)%nat then tl (known r) else known r) (position r) (tk, position r')) as Hl.
  destruct (List.length (known r) =? cache_size)%nat eqn:Eq.
  - apply PeanoNat.Nat.eqb_eq in Eq. destruct (known r) as [|x l]; cbn [tl List.length] in *; [unfold cache_size in Eq; lia|lia].
  - apply PeanoNat.Nat.eqb_neq in Eq. lia.
Qed.
Lemma read_small : forall d text r, known (snd (read_one d text r)) = known r.
Proof. intros d text r. unfold read_one. destruct (cache_find _ _) as [[tk adv]|]; [reflexivity|]. destruct (lex _ _ _); reflexivity. Qed.
Lemma serve_all_small : forall d text qs r, (List.length (known r) <= cache_size)%nat -> (List.length (known (snd (serve_all d text r qs))) <= cache_size)%nat.
Proof.
  intros d text qs. induction qs as [|q qs IH]; intros r H; [exact H|]. cbn [serve_all]. destruct (serve d text r q) as [a r1] eqn:E.
  assert (H1 : (List.length (known r1) <= cache_size)%nat).
  { replace r1 with (snd (serve d text r q)) by (now rewrite E). destruct q; cbn [serve].
    - pose proof (peek_small d text r H) as Hk. destruct (peek_one d text r). exact Hk.
    - pose proof (peek_small d text r H) as Hk. destruct (peek_one d text r). exact Hk.
    - pose proof (read_small d text r) as Hk. destruct (read_one d text r). cbn [snd] in *. now rewrite Hk.
    - pose proof (read_small d text r) as Hk. destruct (read_one d text r). cbn [snd] in *. now rewrite Hk.
    - exact H.
    - exact H. }
  specialize (IH r1 H1). destruct (serve_all d text r1 qs). exact IH.
Qed.

(** tokens taken, in order *)
Lemma answers_taken : forall d text s qs al, answers d text s qs al -> Forall no_seek qs -> Forall (fun a => ~ failed a) al ->
  tokens_are d s (taken qs al).
Proof.
  intros d text s qs al H. induction H as [s|s q a s' qs al Ha H IH|s q a qs al Hf]; intros Hq Hn.
  - constructor.
  - inversion Hq; inversion Hn; subst. specialize (IH ltac:(assumption) ltac:(assumption)).
    destruct Ha; cbn [taken]; try assumption; try contradiction; econstructor; eassumption.
  - inversion Hn as [|? ? H1 _]; subst. destruct H1. destruct Hf; exact I.
Qed.

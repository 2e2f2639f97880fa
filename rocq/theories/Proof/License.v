(** Proofs about licenses. *)
From Coq Require Import List NArith ZArith Bool String Lia.
From Coq Require Import List.
From Verif.Model Require Import Base Numbers Entries License.
From Verif.Spec Require Import License.
From Verif.Proof Require Import Tac.
Import ListNotations.
Local Open Scope N_scope.

Lemma beq_iff : forall a b, beq a b = true <-> a = b.
Proof. intros a b. unfold beq. destruct (list_eq_dec N.eq_dec a b); split; congruence. Qed.

Lemma lookup_under : forall k l v, lookup k l = v -> v <> JNull -> under (JObject l) k v.
Proof.
  intros k l. induction l as [|[k' v'] t IH]; intros v H Hn; cbn [lookup] in H; [congruence|].
  destruct (beq k k') eqn:E.
  - apply beq_iff in E. subst. exists [], t. split; [reflexivity|intros []].
  - destruct (IH v H Hn) as (a & b & E1 & E2). injection E1 as ->. exists ((k', v') :: a), b. split; [reflexivity|].
    cbn [map fst]. intros [->|Hi]; [|exact (E2 Hi)]. rewrite (proj2 (beq_iff k k) eq_refl) in E. discriminate.
Qed.
Lemma under_lookup : forall k l v, under (JObject l) k v -> lookup k l = v.
Proof.
  intros k l v (a & b & E & Hn). injection E as ->. induction a as [|[k' v'] a IH]; cbn [app lookup].
  - now rewrite (proj2 (beq_iff k k) eq_refl).
  - destruct (beq k k') eqn:E; [exfalso; apply beq_iff in E; apply Hn; left; now symmetry|]. apply IH. intros Hi. apply Hn. now right.
Qed.
Lemma member_under : forall k j v, member k j = Ok v -> v <> JNull -> under j k v.
Proof.
  intros k j v H Hn. destruct j; cbn [member] in H; try discriminate; injection H as H; [congruence|].
  now apply lookup_under.
Qed.
Lemma under_member : forall k j v, under j k v -> member k j = Ok v.
Proof. intros k j v H. pose proof H as (a & b & E & _). subst j. cbn [member]. f_equal. now apply under_lookup. Qed.
Lemma text_inv : forall j s, text_of j = Ok s -> j = JString s.
Proof. intros j s H. destruct j; try discriminate. cbn [text_of] in H. congruence. Qed.
Lemma texts_inv : forall l r, texts_of l = Ok r -> l = map JString r.
Proof.
  induction l as [|j l IH]; intros r H; cbn [texts_of] in H; [injection H as <-; reflexivity|].
  destruct (text_of j) as [s| | |] eqn:E; try discriminate. cbn [rbind] in H. destruct (texts_of l) as [t| | |]; try discriminate.
  cbn [rbind] in H. injection H as <-. cbn [map]. f_equal; [now apply text_inv|now apply IH].
Qed.
Lemma texts_map : forall l, texts_of (map JString l) = Ok l.
Proof. induction l as [|s l IH]; [reflexivity|]. cbn [map texts_of text_of rbind]. rewrite IH. reflexivity. Qed.
Lemma optional_none : forall j k, no_text_under j k -> forall v, member k j = Ok v -> optional_text v = [].
Proof.
  intros j k H v E. destruct v; try reflexivity. exfalso. apply (H s). apply member_under; [exact E|discriminate].
Qed.
Lemma data_member : forall k d v k', under d k' v -> exists w, member k d = Ok w.
Proof. intros k d v k' (a & b & -> & _). cbn [member]. now eexists. Qed.

Lemma same_letters_iff : forall a b, same_letters a b = true <-> same_serial a b.
Proof. intros a b. unfold same_letters, same_serial. rewrite beq_iff. reflexivity. Qed.

Section Lookups.
Variable version data signature certificates : json.
Local Notation root := (JObject [(str "version", version); (str "data", data); (str "signature", signature); (str "certificates", certificates)]).
Lemma license_version : member (str "version") root = Ok version. Proof. reflexivity. Qed.
Lemma license_data : member (str "data") root = Ok data. Proof. reflexivity. Qed.
Lemma license_signature : member (str "signature") root = Ok signature. Proof. reflexivity. Qed.
Lemma license_certificates : member (str "certificates") root = Ok certificates. Proof. reflexivity. Qed.
Variable owner note serial updates : json.
Variable expires : option bytes.
Local Notation grants := (JObject ([(str "owner", owner); (str "note", note); (str "serial", serial); (str "updates_expiration", updates)] ++
  match expires with Some e => [(str "temporary_expiration", JString e)] | None => [] end)).
Lemma grant_owner : member (str "owner") grants = Ok owner. Proof. reflexivity. Qed.
Lemma grant_note : member (str "note") grants = Ok note. Proof. reflexivity. Qed.
Lemma grant_serial : member (str "serial") grants = Ok serial. Proof. reflexivity. Qed.
Lemma grant_updates : member (str "updates_expiration") grants = Ok updates. Proof. reflexivity. Qed.
Lemma grant_expires : member (str "temporary_expiration") grants = Ok (match expires with Some e => JString e | None => JNull end).
Proof. destruct expires; reflexivity. Qed.
End Lookups.

Lemma r_ok : forall r : res unit, {r = Ok tt} + {r <> Ok tt}.
Proof. intros [[]|e| |]; [now left|right; discriminate..]. Qed.

Lemma under_is : forall j k v w, under j k v -> member k j = Ok w -> v = w.
Proof. intros j k v w H E. apply under_member in H. congruence. Qed.
Lemma string_inj : forall a b, map JString a = map JString b -> a = b.
Proof.
  induction a as [|x a IH]; intros [|y b] H; cbn [map] in H; try discriminate; [reflexivity|].
  assert (x = y /\ map JString a = map JString b) as [-> H2] by (injection H; auto). f_equal. now apply IH.
Qed.
Lemma holds_license : forall g s c g' s' c', holds (license g s c) g' s' c' -> g' = g /\ s' = s /\ c' = c.
Proof.
  intros g s c [o n r u x] s' c' (data & Hd & Ho & Hn & Hr & Hu & Hx & Hs & Hc). unfold license in *. cbn [g_owner g_note g_serial g_updates g_expires] in *.
  assert (Ed := under_is _ _ _ _ Hd (license_data _ _ _ _)). subst data.
  assert (Eo := under_is _ _ _ _ Ho (grant_owner _ _ _ _ _)). assert (En := under_is _ _ _ _ Hn (grant_note _ _ _ _ _)).
  assert (Er := under_is _ _ _ _ Hr (grant_serial _ _ _ _ _)). assert (Eu := under_is _ _ _ _ Hu (grant_updates _ _ _ _ _)).
  assert (Es := under_is _ _ _ _ Hs (license_signature _ _ _ _)). assert (Ec := under_is _ _ _ _ Hc (license_certificates _ _ _ _)).
  assert (Ex : x = g_expires g).
  { destruct x as [e|].
    - assert (Ee := under_is _ _ _ _ Hx (grant_expires _ _ _ _ _)). destruct (g_expires g); congruence.
    - destruct (g_expires g) as [e|] eqn:E; [|reflexivity]. exfalso. apply (Hx e). apply member_under; [apply (grant_expires _ _ _ _ (Some e))|discriminate]. }
  destruct g as [o' n' r' u' x']. cbn [g_owner g_note g_serial g_updates g_expires] in *. repeat split; [|congruence|].
  - assert (o = o') by congruence. assert (n = n') by congruence. assert (r = r') by congruence. assert (u = u') by congruence. now subst.
  - apply string_inj. congruence.
Qed.

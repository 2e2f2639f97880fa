(** C84: licenses. *)
From Coq Require Import List NArith ZArith Bool String Lia.
From Coq Require Import List.
From Verif.Model Require Import Base Numbers Entries License.
From Verif.Spec Require Import Grammar License.
From Verif.Proof Require Import Tac Token License.
Import ListNotations.
Local Open Scope N_scope.

Section C84.
Variable parse : bytes -> option json.
Variable check_signature : bytes -> bytes -> bytes -> res bool.
Variable check_chain : list bytes -> res bool.
Variable read_date : bytes -> option Z.
Variable refused_serials : list bytes.
Variable build_time : Z.
Let give := set_license parse check_signature check_chain read_date refused_serials build_time.
Let valid := is_valid read_date.
Let refused (serial : bytes) : Prop := exists s, In s refused_serials /\ same_serial serial s.
(** the certificates lead to the vendor, and the first of them has signed the text *)
Let vouched (text signature : bytes) (certificates : list bytes) : Prop :=
  exists first rest, certificates = first :: rest /\ check_signature text signature first = Ok true /\ check_chain certificates = Ok true.
Let in_time (g : grant) : Prop := exists t, read_date (g_updates g) = Some t /\ (build_time <= t)%Z.

(** A license that is accepted holds fields whose text, one after the other, was signed; its serial number is not refused; the library
    was built before the updates ended. *)
Theorem C84_accepted_partial : forall s data s', give s data = (s', Ok tt) ->
  exists root g signature certificates, parse data = Some root /\ holds root g signature certificates /\
    vouched (signed_text g) signature certificates /\ ~ refused (g_serial g) /\ in_time g /\
    s' = {| update_valid := true; temporary_expiration := expiry g |}.
Proof.
  intros s data s' H. unfold give, set_license in H. destruct (set_license_data _ _ _ _ _ _ data) as [t| | |] eqn:E; try discriminate.
  apply pair_equal_spec in H as [<- _]. unfold set_license_data in E. destruct (parse data) as [root|]; [|discriminate].
  destruct (member (str "version") root) as [vn| | |]; try discriminate. cbn [rbind] in E. destruct (text_of vn) as [v| | |]; try discriminate.
  cbn [rbind] in E. destruct (split_version v) as [[ma mi]|]; [|discriminate]. destruct (stoi 10 ma) as [major| | |]; try discriminate. cbn [rbind] in E.
  destruct (stoi 10 mi); try discriminate. cbn [rbind] in E. destruct (negb (major =? 1)%Z); [discriminate|].
  destruct (member (str "data") root) as [dn| | |] eqn:Edn; try discriminate. cbn [rbind] in E.
  destruct (member (str "owner") dn) as [on| | |] eqn:Eon; try discriminate. cbn [rbind] in E.
  destruct (member (str "note") dn) as [nn| | |] eqn:Enn; try discriminate. cbn [rbind] in E.
  destruct (member (str "serial") dn) as [sn| | |] eqn:Esn; try discriminate. cbn [rbind] in E.
  destruct (member (str "updates_expiration") dn) as [un| | |] eqn:Eun; try discriminate. cbn [rbind] in E.
  destruct (member (str "temporary_expiration") dn) as [tn| | |] eqn:Etn; try discriminate. cbn [rbind] in E.
  destruct (text_of on) as [owner| | |] eqn:To; try discriminate. cbn [rbind] in E. apply text_inv in To.
  destruct (text_of nn) as [note| | |] eqn:Tn; try discriminate. cbn [rbind] in E. apply text_inv in Tn.
  destruct (text_of sn) as [serial| | |] eqn:Ts; try discriminate. cbn [rbind] in E. apply text_inv in Ts.
  destruct (text_of un) as [updates| | |] eqn:Tu; try discriminate. cbn [rbind] in E. apply text_inv in Tu.
  destruct (check_blacklist refused_serials serial) eqn:Eb; [discriminate|]. unfold expired in E.
  destruct (read_date updates) as [day|] eqn:Ed; [|discriminate]. cbn [rbind] in E. destruct (Z.ltb_spec day build_time) as [|Hd]; [discriminate|].
  destruct (member (str "signature") root) as [gn| | |] eqn:Egn; try discriminate. cbn [rbind] in E.
  destruct (member (str "certificates") root) as [cn| | |] eqn:Ecn; try discriminate. cbn [rbind] in E.
  destruct (text_of gn) as [signature| | |] eqn:Tg; try discriminate. cbn [rbind] in E. apply text_inv in Tg.
  destruct cn as [| |[|first others]| |]; try discriminate. destruct (text_of first) as [certificate| | |] eqn:Tf; try discriminate. cbn [rbind] in E.
  destruct (check_signature _ signature certificate) as [ok| | |] eqn:Es; try discriminate. cbn [rbind] in E. destruct ok; [|discriminate]. cbn [negb] in E.
  destruct (texts_of (first :: others)) as [certificates| | |] eqn:Tc; try discriminate. cbn [rbind] in E.
  destruct (check_chain certificates) as [ok| | |] eqn:Ech; try discriminate. cbn [rbind] in E. destruct ok; [|discriminate]. cbn [negb] in E.
  assert (Et : optional_text tn = t) by congruence. clear E. subst on nn sn un gn.
  remember (match tn with JString x => Some x | _ => None end) as expires eqn:Hexp.
  exists root, {| g_owner := owner; g_note := note; g_serial := serial; g_updates := updates; g_expires := expires |}, signature, certificates.
  assert (Hx : match expires with Some e => e | None => [] end = optional_text tn) by (rewrite Hexp; destruct tn; reflexivity).
  split; [reflexivity|]. split; [|split; [|split; [|split]]].
  - exists dn. cbn [g_owner g_note g_serial g_updates g_expires].
    assert (Hd' : dn <> JNull) by (intros ->; cbn [member] in Eon; congruence).
    split; [now apply member_under|]. split; [apply member_under; [exact Eon|discriminate]|]. split; [apply member_under; [exact Enn|discriminate]|].
    split; [apply member_under; [exact Esn|discriminate]|]. split; [apply member_under; [exact Eun|discriminate]|].
    split; [|split; [apply member_under; [exact Egn|discriminate]|]].
    + rewrite Hexp. clear Hexp Hx Es. destruct tn; try (intros x Hu; apply under_member in Hu; congruence). apply member_under; [exact Etn|discriminate].
    + apply texts_inv in Tc. rewrite <- Tc. apply member_under; [exact Ecn|discriminate].
  - cbn [texts_of] in Tc. rewrite Tf in Tc. cbn [rbind] in Tc. destruct (texts_of others) as [rest| | |]; try discriminate. cbn [rbind] in Tc.
    assert (Hc : certificate :: rest = certificates) by congruence. exists certificate, rest. split; [now symmetry|]. split; [|exact Ech].
    unfold signed_text, expiry. cbn [g_owner g_note g_serial g_updates g_expires]. rewrite <- Hx in Es. exact Es.
  - intros (x & Hx1 & Hx2). assert (Hb : check_blacklist refused_serials serial = true); [|congruence]. unfold check_blacklist.
    apply existsb_exists. exists x. split; [exact Hx1|now apply same_letters_iff].
  - exists day. split; [exact Ed|exact Hd].
  - unfold expiry. cbn [g_expires]. f_equal. rewrite <- Et. symmetry. exact Hx.
Qed.

(** A license of another version, with a plain number before the point, is not accepted. *)
Theorem C84_version : forall s data root major minor, parse data = Some root -> under root (str "version") (JString (major ++ [46] ++ minor)) ->
  major <> [] -> Forall decimal_digit major -> decimal_value major <> 1 -> snd (give s data) <> Ok tt.
Proof.
  intros s data root major minor Hp Hv Hne Hd H1. unfold give, set_license, set_license_data. rewrite Hp, (under_member _ _ _ Hv). cbn [rbind text_of].
  assert (Es : split_version (major ++ [46] ++ minor) = Some (major, minor)).
  { clear - Hd. induction Hd as [|c t Hc Ht IH]; [reflexivity|]. change ((c :: t) ++ [46] ++ minor) with (c :: (t ++ [46] ++ minor)). cbn [split_version]. unfold decimal_digit in Hc.
    destruct (N.eqb_spec c 46); [lia|]. rewrite IH. reflexivity. }
  rewrite Es. cbv iota beta. assert (E := strtol_decimal [] false _ st_none Hne Hd). cbn [app signed] in E. unfold stoi. rewrite E.
  destruct (_ && _)%bool; [|discriminate]. cbn [rbind]. destruct (strtol 10 minor) as [v|]; [|discriminate]. destruct (_ && _)%bool; [|discriminate]. cbn [rbind].
  destruct (Z.eqb_spec (Z.of_N (decimal_value major)) 1); [lia|]. discriminate.
Qed.

(** Every license that the vendor has signed is accepted as long as its serial number is not refused and its updates cover the build. *)
Theorem C84_complete : forall s data g signature certificates, parse data = Some (license g signature certificates) ->
  vouched (signed_text g) signature certificates -> ~ refused (g_serial g) -> in_time g ->
  give s data = ({| update_valid := true; temporary_expiration := expiry g |}, Ok tt).
Proof.
  intros s data g signature certificates Hp (first & rest & -> & Hs & Hch) Hr (day & Hd & Hb). unfold give, set_license.
  assert (E : set_license_data parse check_signature check_chain read_date refused_serials build_time data =
    Ok (expiry g)); [|rewrite E; reflexivity].
  unfold set_license_data. rewrite Hp. unfold license. rewrite license_version. cbn [rbind text_of].
  change (split_version (str "1.0")) with (Some (str "1", str "0")). cbv iota beta. change (stoi 10 (str "1")) with (Ok 1%Z).
  change (stoi 10 (str "0")) with (Ok 0%Z). cbn [rbind]. change (negb (1 =? 1)%Z) with false. cbv iota.
  rewrite license_data, license_signature, license_certificates. cbn [rbind]. rewrite grant_owner, grant_note, grant_serial, grant_updates, grant_expires.
  cbn [rbind text_of]. destruct (check_blacklist refused_serials (g_serial g)) eqn:Eb.
  { exfalso. apply Hr. unfold check_blacklist in Eb. apply existsb_exists in Eb as (x & H1 & H2). exists x. split; [exact H1|]. now apply same_letters_iff. }
  unfold expired. rewrite Hd. cbn [rbind]. destruct (Z.ltb_spec day build_time) as [|_]; [lia|]. cbn [map text_of rbind].
  assert (Ho : optional_text match g_expires g with Some e => JString e | None => JNull end = expiry g)
    by (unfold expiry; destruct (g_expires g); reflexivity).
  rewrite Ho. unfold signed_text in Hs. rewrite Hs. cbn [rbind negb].
  change (JString first :: map JString rest) with (map JString (first :: rest)). rewrite texts_map. cbn [rbind]. rewrite Hch. reflexivity.
Qed.

(** A license that is not accepted leaves the state as it was. *)
Theorem C84_refused : forall s data s' r, give s data = (s', r) -> r <> Ok tt -> s' = s.
Proof.
  intros s data s' r H Hr. unfold give, set_license in H. destruct (set_license_data _ _ _ _ _ _ data); apply pair_equal_spec in H as [<- <-]; try reflexivity.
  now contradiction Hr.
Qed.

(** After any number of licenses, the library goes by the last one that it accepted, and without one it is not valid. *)
Theorem C84_history : forall s l s' answers, give_all parse check_signature check_chain read_date refused_serials build_time s l = (s', answers) ->
  List.length answers = List.length l /\
  (s' = s /\ Forall (fun r => r <> Ok tt) answers \/
   exists before d after ra rb, l = before ++ d :: after /\ answers = ra ++ Ok tt :: rb /\ List.length ra = List.length before /\
     Forall (fun r => r <> Ok tt) rb /\ forall s0, give s0 d = (s', Ok tt)).
Proof.
  intros s l. revert s. induction l as [|d l IH]; intros s s' answers H; cbn [give_all] in H.
  - apply pair_equal_spec in H as [<- <-]. split; [reflexivity|]. left. split; [reflexivity|constructor].
  - destruct (set_license _ _ _ _ _ _ s d) as [s1 r] eqn:E. destruct (give_all _ _ _ _ _ _ s1 l) as [s2 rs] eqn:E2. apply pair_equal_spec in H as [<- <-].
    destruct (IH _ _ _ E2) as (Hl & Hc). split; [cbn [List.length]; now rewrite Hl|].
    destruct Hc as [(-> & Hf)|(before & d' & after & ra & rb & -> & -> & Hlen & Hf & Hg)].
    + destruct (r_ok r) as [->|Hr].
      * right. exists [], d, l, [], rs. split; [reflexivity|]. split; [reflexivity|]. split; [reflexivity|]. split; [exact Hf|]. intros s0.
        unfold give, set_license in *. destruct (set_license_data _ _ _ _ _ _ d); [|discriminate..]. apply pair_equal_spec in E as [<- _]. reflexivity.
      * left. split; [now apply (C84_refused s d s1 r)|]. constructor; assumption.
    + right. exists (d :: before), d', after, (r :: ra), rb. split; [reflexivity|]. split; [reflexivity|]. split; [cbn [List.length]; now rewrite Hlen|].
      split; [exact Hf|exact Hg].
Qed.

(** As long as no license was accepted the library is not licensed. *)
Theorem C84_unlicensed : forall l s' answers now,
  give_all parse check_signature check_chain read_date refused_serials build_time initial l = (s', answers) ->
  Forall (fun r => r <> Ok tt) answers -> valid true s' now = Ok false /\ is_temporary s' = false.
Proof.
  intros l s' answers now H Hf. destruct (C84_history _ _ _ _ H) as (_ & [(-> & _)|(b & d & a & ra & rb & _ & -> & _)]); [split; reflexivity|].
  exfalso. rewrite Forall_forall in Hf. apply (Hf (Ok tt)); [|reflexivity]. apply in_or_app. right. now left.
Qed.

(** A permanent license is valid for ever, a temporary one up to its last moment. *)
Theorem C84_valid : forall s data g signature certificates now, parse data = Some (license g signature certificates) ->
  vouched (signed_text g) signature certificates -> ~ refused (g_serial g) -> in_time g ->
  valid true (fst (give s data)) now =
    match g_expires g with
    | None => Ok true
    | Some [] => Ok true
    | Some e => match read_date e with Some t => Ok (now <=? t)%Z | None => Throw EGeneral end
    end.
Proof.
  intros s data g signature certificates now Hp Hv Hr Ht. rewrite (C84_complete s data g signature certificates Hp Hv Hr Ht). unfold valid, is_valid.
  cbn [fst negb update_valid temporary_expiration]. unfold expiry. destruct (g_expires g) as [[|c e]|]; [reflexivity| |reflexivity]. unfold expired.
  destruct (read_date (c :: e)) as [t|]; [|reflexivity]. cbn [rbind]. f_equal. lia.
Qed.

Let accepted_license : forall s data s' g signature certificates, parse data = Some (license g signature certificates) ->
  give s data = (s', Ok tt) -> vouched (signed_text g) signature certificates /\ ~ refused (g_serial g) /\ in_time g.
Proof.
  intros s data s' g signature certificates Hp H. destruct (C84_accepted_partial _ _ _ H) as (root & g' & s2 & c2 & Hp' & Hh & Hv & Hr & Ht & _).
  rewrite Hp in Hp'. assert (root = license g signature certificates) by congruence. subst root. apply holds_license in Hh as (-> & -> & ->).
  split; [exact Hv|]. split; assumption.
Qed.

(** The full property fails: whoever has a temporary license makes one that never ends out of it.  The signed text is the same when the
    last day is written behind the end of the updates, and the date of the updates reads as before. *)
Theorem C84_temporary_refuted : forall s data data' g e signature certificates, stops_after_date read_date -> is_date (g_updates g) ->
  g_expires g = Some e -> parse data = Some (license g signature certificates) -> snd (give s data) = Ok tt ->
  parse data' = Some (license {| g_owner := g_owner g; g_note := g_note g; g_serial := g_serial g; g_updates := g_updates g ++ e; g_expires := None |}
                              signature certificates) ->
  snd (give s data') = Ok tt /\ forall now, valid true (fst (give s data')) now = Ok true.
Proof.
  intros s data data' g e signature certificates Hst Hd He Hp Ha Hp'. destruct (give s data) as [s1 r] eqn:E. cbn [snd] in Ha. subst r.
  destruct (accepted_license _ _ _ _ _ _ Hp E) as (Hv & Hr & Ht).
  set (g' := {| g_owner := g_owner g; g_note := g_note g; g_serial := g_serial g; g_updates := g_updates g ++ e; g_expires := None |}) in *.
  assert (Hv' : vouched (signed_text g') signature certificates).
  { assert (signed_text g' = signed_text g) as ->; [|exact Hv]. unfold signed_text, expiry, g'.
    cbn [g_owner g_note g_serial g_updates g_expires]. rewrite He, app_nil_r. reflexivity. }
  assert (Ht' : in_time g').
  { destruct Ht as (t & H1 & H2). exists t. split; [|exact H2]. unfold g'. cbn [g_updates]. rewrite Hst; assumption. }
  split; [rewrite (C84_complete s data' g' signature certificates Hp' Hv' Hr Ht'); reflexivity|]. intros now.
  rewrite (C84_valid s data' g' signature certificates now Hp' Hv' Hr Ht'). reflexivity.
Qed.

(** Nor does refusing a serial number help: its first character can be written behind the note. *)
Theorem C84_serial_refuted : forall s data data' g c rest signature certificates, g_serial g = c :: rest -> refused (c :: rest) -> ~ refused rest ->
  vouched (signed_text g) signature certificates -> in_time g -> parse data = Some (license g signature certificates) ->
  parse data' = Some (license {| g_owner := g_owner g; g_note := g_note g ++ [c]; g_serial := rest; g_updates := g_updates g; g_expires := g_expires g |}
                              signature certificates) ->
  snd (give s data) <> Ok tt /\ snd (give s data') = Ok tt.
Proof.
  intros s data data' g c rest signature certificates Hs Hr Hr' Hv Ht Hp Hp'. split.
  - intros Ha. destruct (give s data) as [s1 r] eqn:E. cbn [snd] in Ha. subst r.
    destruct (accepted_license _ _ _ _ _ _ Hp E) as (_ & Hn & _). apply Hn. rewrite Hs. exact Hr.
  - set (g' := {| g_owner := g_owner g; g_note := g_note g ++ [c]; g_serial := rest; g_updates := g_updates g; g_expires := g_expires g |}) in *.
    assert (Hv' : vouched (signed_text g') signature certificates).
    { assert (signed_text g' = signed_text g) as ->; [|exact Hv]. unfold signed_text, expiry, g'.
      cbn [g_owner g_note g_serial g_updates g_expires]. rewrite Hs, <- !app_assoc. reflexivity. }
    rewrite (C84_complete s data' g' signature certificates Hp' Hv' Hr' Ht). reflexivity.
Qed.

(** A library that was compiled without the checks takes every state for licensed, also the one with no license at all. *)
Theorem C84_unchecked_refuted : forall l now,
  valid false (fst (give_all parse check_signature check_chain read_date refused_serials build_time initial l)) now = Ok true.
Proof. reflexivity. Qed.
End C84.

(** A license for one year, the same without its end, and one with a refused serial number. *)
Definition year_of (s : bytes) : option Z :=
  match s with
  | a :: b :: c :: d :: _ => Some (1000 * (Z.of_N a - 48) + 100 * (Z.of_N b - 48) + 10 * (Z.of_N c - 48) + (Z.of_N d - 48))%Z
  | _ => None
  end.
Definition small : grant := {| g_owner := str "Me"; g_note := str "trial"; g_serial := str "AB12"; g_updates := str "2025-01-31"; g_expires := Some (str "2024-06-30") |}.
Definition longer : grant := {| g_owner := str "Me"; g_note := str "trial"; g_serial := str "AB12"; g_updates := str "2025-01-31" ++ str "2024-06-30"; g_expires := None |}.
Definition stolen : grant := {| g_owner := str "Me"; g_note := str "full"; g_serial := str "X9"; g_updates := str "2025-01-31"; g_expires := None |}.
Definition renamed : grant := {| g_owner := str "Me"; g_note := str "fullX"; g_serial := str "9"; g_updates := str "2025-01-31"; g_expires := None |}.
Definition reads (s : bytes) : option json :=
  if beq s (str "small") then Some (license small (signed_text small) [str "vendor"])
  else if beq s (str "longer") then Some (license longer (signed_text small) [str "vendor"])
  else if beq s (str "stolen") then Some (license stolen (signed_text stolen) [str "vendor"])
  else if beq s (str "renamed") then Some (license renamed (signed_text stolen) [str "vendor"])
  else if beq s (str "false") then Some (license longer (str "other") [str "vendor"])
  else None.
Definition signs (content signature certificate : bytes) : res bool := Ok (beq content signature && beq certificate (str "vendor")).
Definition leads (l : list bytes) : res bool := Ok (beq (last l []) (str "vendor")).

Example C84_case :
  stops_after_date year_of /\ is_date (g_updates small) /\
  (let give := set_license reads signs leads year_of [str "x9"] 2024%Z in
   let valid := is_valid year_of true in
   snd (give initial (str "small")) = Ok tt /\ valid (fst (give initial (str "small"))) 2024%Z = Ok true /\
   valid (fst (give initial (str "small"))) 2026%Z = Ok false /\ is_temporary (fst (give initial (str "small"))) = true /\
   snd (give initial (str "longer")) = Ok tt /\ valid (fst (give initial (str "longer"))) 2026%Z = Ok true /\
   snd (give initial (str "stolen")) = Throw EGeneral /\ snd (give initial (str "renamed")) = Ok tt /\
   snd (give initial (str "false")) = Throw EGeneral /\ snd (give initial (str "what")) = Throw EGeneral /\
   snd (set_license reads signs leads year_of [] 2026%Z initial (str "small")) = Throw EGeneral /\
   give_all reads signs leads year_of [str "x9"] 2024%Z initial [str "false"; str "longer"; str "small"; str "stolen"] =
     ({| update_valid := true; temporary_expiration := str "2024-06-30" |}, [Throw EGeneral; Ok tt; Ok tt; Throw EGeneral])) /\
  (exists s, In s [str "x9"] /\ same_serial (str "X9") s) /\ ~ (exists s, In s [str "x9"] /\ same_serial (str "9") s).
Proof.
  split; [intros s t (a & b & c & d & e & f & g & h & -> & _); reflexivity|]. split.
  { exists 50, 48, 50, 53, 48, 49, 51, 49. split; [reflexivity|]. repeat constructor; discriminate. }
  split; [vm_compute; repeat split; reflexivity|]. split; [exists (str "x9"); split; [now left|reflexivity]|].
  intros (s & [<-|[]] & H). discriminate.
Qed.

Print Assumptions C84_accepted_partial.
Print Assumptions C84_version.
Print Assumptions C84_complete.
Print Assumptions C84_refused.
Print Assumptions C84_history.
Print Assumptions C84_unlicensed.
Print Assumptions C84_valid.
Print Assumptions C84_temporary_refuted.
Print Assumptions C84_serial_refuted.
Print Assumptions C84_unchecked_refuted.

(** What a license should be, without the program's helpers. *)
From Coq Require Import List NArith ZArith Bool String.
From Coq Require Import List.
From Verif.Model Require Import Base License.
Import ListNotations.
Local Open Scope N_scope.

(** What the vendor grants.  A permanent license has no expiration. *)
Record grant : Type := { g_owner : bytes; g_note : bytes; g_serial : bytes; g_updates : bytes; g_expires : option bytes }.

Definition expiry (g : grant) : bytes := match g_expires g with Some e => e | None => [] end.

(** The text of a grant that the vendor signs. *)
Definition signed_text (g : grant) : bytes := g_owner g ++ g_note g ++ g_serial g ++ g_updates g ++ expiry g.

(** The license file of a grant, as JSON. *)
Definition license (g : grant) (signature : bytes) (certificates : list bytes) : json :=
  JObject [(str "version", JString (str "1.0"));
           (str "data", JObject ([(str "owner", JString (g_owner g)); (str "note", JString (g_note g)); (str "serial", JString (g_serial g));
                                  (str "updates_expiration", JString (g_updates g))] ++
                                 match g_expires g with Some e => [(str "temporary_expiration", JString e)] | None => [] end));
           (str "signature", JString signature);
           (str "certificates", JArray (map JString certificates))].

(** A calendar date as it stands in licenses, four digits, two and two. *)
Definition is_digit (c : N) : Prop := 48 <= c <= 57.
Definition is_date (s : bytes) : Prop :=
  exists a b c d e f g h, s = [a; b; c; d; 45; e; f; 45; g; h] /\ Forall is_digit [a; b; c; d; e; f; g; h].
(** What std::get_time does with fields of fixed width: it stops behind the date. *)
Definition stops_after_date (read_date : bytes -> option Z) : Prop := forall s t, is_date s -> read_date (s ++ t) = read_date s.

(** Two serial numbers that differ in small and capital letters only are the same. *)
Definition capital (c : N) : N := if (97 <=? c) && (c <=? 122) then c - 32 else c.
Definition same_serial (a b : bytes) : Prop := map capital a = map capital b.

(** The value under a key of a JSON object. *)
Definition under (j : json) (k : bytes) (v : json) : Prop :=
  exists a b, j = JObject (a ++ (k, v) :: b) /\ ~ In k (map fst a).
(** The key is not there, or there is something else than a text. *)
Definition no_text_under (j : json) (k : bytes) : Prop := forall s, ~ under j k (JString s).
(** A license file that holds a grant. *)
Definition holds (root : json) (g : grant) (signature : bytes) (certificates : list bytes) : Prop :=
  exists data, under root (str "data") data /\
    under data (str "owner") (JString (g_owner g)) /\ under data (str "note") (JString (g_note g)) /\
    under data (str "serial") (JString (g_serial g)) /\ under data (str "updates_expiration") (JString (g_updates g)) /\
    match g_expires g with
    | Some e => under data (str "temporary_expiration") (JString e)
    | None => no_text_under data (str "temporary_expiration")
    end /\
    under root (str "signature") (JString signature) /\ under root (str "certificates") (JArray (map JString certificates)).

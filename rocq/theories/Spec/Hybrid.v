(** Hybrid-reference files and what their incremental save has to keep. *)
From Coq Require Import List NArith ZArith Bool String Sorted.
From Verif.Model Require Import Base SMap Object Token Parser Xref FileWrite Chain Update Hybrid.
From Verif.Spec Require Import Grammar Chain FileWrite Update.
Import ListNotations.
Local Open Scope N_scope.

(** [file] has one table, at [off]; its objects are [l] and its trailer [m].  XRefStm of the trailer leads to the cross-reference stream
    with number [n], generation [g], dictionary [hm] and data [hdata]. *)
Definition hybrid_layout (file : bytes) (off : Z) (l : list (xentry * obj)) (m : list (bytes * obj)) (n g : N) (hm : list (bytes * obj))
    (hdata : bytes) : Prop :=
  exists before between,
    append_section (before ++ write_object n g (OStream hm hdata) ++ between) l m = Ok (file, off) /\
    sm_find (str "XRefStm") m = Some (OInt (Z.of_nat (List.length before))) /\
    n < 2 ^ 63 /\ g <= 65535 /\ writable (ODict hm) /\ In (str "Length", OInt (Z.of_nat (List.length hdata))) hm /\
    StronglySorted N.lt (map (fun x => xnum (fst x)) l) /\
    Forall (fun x => entry_saveable (fst x) /\ (forall off, xdata (fst x) = KUsed off true -> storable (snd x))) l /\
    writable (ODict m) /\ (forall v, ~ In (str "Prev", v) m) /\ N.of_nat (List.length l) < 2 ^ 63.

(** number [n] was changed in the table of [s] *)
Definition changed_in (s : fsection) (n : N) : Prop := exists x, In x (f_items s) /\ f_dirty x = true /\ xnum (f_entry x) = n.

(** Table and hybrid stream of [sec] do not say different things about number [n]. *)
Definition agree_on (sec : section) (n : N) : Prop :=
  forall h e1 e2, s_hybrid sec = Some h -> In e1 (s_entries sec) -> In e2 h -> xnum e1 = n -> xnum e2 = n -> e1 = e2.

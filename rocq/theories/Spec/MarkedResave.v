(** What a file shows that was opened and saved without a license (C101). *)
From Coq Require Import List NArith ZArith Bool String.
From Verif.Model Require Import Base SMap Object Equality Xref Header.
From Verif.Spec Require Import Strings Grammar FileWrite Update Unreferenced Conforming Watermark Written MarkedSave.
Import ListNotations.
Local Open Scope N_scope.

(** the filters of a stream are in its dictionary *)
Definition own_filters (m : list (bytes * obj)) : Prop :=
  forall key v n g, In key [str "Filter"; str "DecodeParms"] -> sm_find key m = Some v -> ~ mentions n g v.

(** By the standard's reading, [file] is the document [items] with [trailer], whose page tree has the [kids], with the mark: what C101_saved_partial says. *)
Definition marked_file (real : bool -> N -> N -> dbl) (text image : bytes) (decode : list (bytes * obj) -> bytes -> res bytes)
    (file : bytes) (v : version) (items : list (xentry * obj)) (trailer : list (bytes * obj)) (kids : list obj) : Prop :=
  exists r font items1 nodes,
    conforming file v [r] /\ same_trailer trailer (r_trailer r) /\ font_added items items1 font /\ page_nodes (object_of items1) kids nodes /\
    (forall e o off, In (e, o) items1 -> xdata e = KUsed off true ->
       exists o', stands_for file [r] (xnum e) (xgen e) o' /\
         match o with
         | OStream m data => exists m' data', o' = OStream m' data' /\
             stream_marked real text image decode (object_of items1) nodes (xnum e, xgen e) m m' data data'
         | _ => grown (ORef font 0) 3 o o'
         end) /\
    (forall n g, (forall e o off, In (e, o) items1 -> xdata e = KUsed off true -> xnum e = n -> xgen e <> g) -> stands_for file [r] n g ONull).

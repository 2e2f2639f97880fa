(** The documents with cross-reference streams that a full save keeps. *)
From Coq Require Import List NArith ZArith Bool String.
From Verif.Model Require Import Base SMap Object Xref Chain.
From Verif.Spec Require Import Grammar FileWrite Chain Merge Unreferenced Save StreamFile.
Import ListNotations.
Local Open Scope N_scope.

(** no section is a hybrid one, every section lists each number once; entries in an object stream have generation 0 *)
Definition pure_sections (c : chain) : Prop :=
  forall s, In s c -> s_hybrid s = None /\ NoDup (map xnum (s_entries s)) /\
    forall e, In e (s_entries s) -> xgen e <= 65535 /\
      match xdata e with KFree _ => True | KUsed _ u => u = true | KComp _ i => xgen e = 0 /\ i < 2 ^ 63 end.
(** the oldest section that is a cross-reference stream (the newest section comes first) *)
Definition oldest_stream (c : chain) (base : section) : Prop :=
  exists newer older, c = newer ++ base :: older /\ s_kind base = SStream /\ forall s, In s older -> s_kind s <> SStream.

Section Document.
Variable supported : header -> Prop.
Variable content : xentry -> obj.
Variable c : chain.
(** the stream object of the oldest cross-reference stream *)
Variable self : N * N.
Variable base : section.

(** object [n] is an object stream: an object of the document is in it *)
Definition object_stream (n : N) : Prop := exists m g e i, resolve_entry m g c = Some e /\ xdata e = KComp n i.
(** the objects that only serve to store the others *)
Definition storage (n g : N) : Prop := (n, g) = self \/ (g = 0 /\ object_stream n).
(** the filters are written in the header itself *)
Definition direct_filters (m : header) : Prop :=
  forall key v, In key [str "Filter"; str "DecodeParms"] -> sm_find key m = Some v -> forall n g, ~ mentions n g v.
(** the entry of the oldest stream, or of the newest trailer when it has none *)
Definition merged_entry (newest : section) (key : bytes) : option obj :=
  match sm_find key (s_trailer base) with Some v => Some v | None => sm_find key (s_trailer newest) end.

Record compressed_document (newest : section) : Prop := {
  (* the stream object is there, is the one whose dictionary is the trailer, and is an ordinary object *)
  cp_self : exists e off d, resolve_entry (fst self) (snd self) c = Some e /\ xdata e = KUsed off true /\ (0 <= off < 2 ^ 63)%Z /\
              content e = OStream (s_trailer base) d;
  (* objects in object streams are no streams; their object streams are there and can be encoded *)
  cp_streams : forall n g e k i, resolve_entry n g c = Some e -> xdata e = KComp k i -> writable (content e) /\ k <> fst self /\
              exists e' off m d, resolve_entry k 0 c = Some e' /\ xdata e' = KUsed off true /\ content e' = OStream m d /\ supported m /\ direct_filters m;
  (* nothing refers to the storage but the storage *)
  cp_apart : forall n g, storage n g -> ~ mentions n g (ODict (s_trailer newest)) /\ ~ mentions n g (ODict (s_trailer base)) /\
              forall m gm, mentions n g (document_objects content c m gm) -> storage m gm;
  (* every storage object has data of its own *)
  cp_data : forall n g m d n' g' m', storage n g -> document_objects content c n g = OStream m d ->
              document_objects content c n' g' = OStream m' d -> n' = n /\ g' = g;
  (* the new cross-reference stream can be encoded *)
  cp_filter : exists m, supported m /\ sm_find (str "Filter") m = merged_entry newest (str "Filter") /\ sm_find (str "DecodeParms") m = None;
  cp_direct : forall v n g, merged_entry newest (str "Filter") = Some v -> ~ mentions n g v;
  (* the newest trailer can be written *)
  cp_trailer : writable (ODict (s_trailer newest)) /\ forall v, In (str "Length", v) (s_trailer newest) -> exists z, v = OInt z /\ (0 <= z)%Z;
  (* the oldest stream names the same objects as the newest trailer, or none *)
  cp_names : forall key, In key [str "Root"; str "Info"; str "ID"] ->
              sm_find key (s_trailer base) = None \/ sm_find key (s_trailer base) = sm_find key (s_trailer newest)
}.
End Document.

(** what is written is below 2^63 bytes *)
Definition text_fits (l : list (xentry * obj)) : Prop :=
  (Z.of_nat (List.length (flat_map (fun p => to_pdf (snd p)) l)) + 64 * Z.of_nat (List.length l) + 64 < 2 ^ 63)%Z.

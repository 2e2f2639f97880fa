(** What is saved with a cross-reference stream, and what the file means to somebody who opens it (ISO 32000-1, 7.5.7 and 7.5.8). *)
From Coq Require Import List NArith ZArith Bool String Sorted.
From Verif.Model Require Import Base SMap Object Token Parser Xref ObjStream FileWrite.
From Verif.Spec Require Import Strings Grammar FileWrite.
Import ListNotations.
Local Open Scope N_scope.

Definition header := list (bytes * obj).
(** two headers ask for the same filters *)
Definition same_filters (m m' : header) : Prop :=
  sm_find (str "Filter") m' = sm_find (str "Filter") m /\ sm_find (str "DecodeParms") m' = sm_find (str "DecodeParms") m.
(** Bodies of streams with supported filters: what was encoded can be decoded, by any header with the same filters; buffers are below
    2^63 bytes. *)
Record codec (supported : header -> Prop) (encode decode : header -> bytes -> res bytes) : Prop := {
  cd_same : forall m m', same_filters m m' -> supported m -> supported m';
  cd_back : forall m m' data b, supported m -> same_filters m m' -> encode m data = Ok b -> decode m' b = Ok data;
  cd_size : forall m data b, encode m data = Ok b -> N.of_nat (List.length b) < 2 ^ 63
}.

(** an entry with number [n] and generation [g] in use, and its object *)
Definition in_use (l : list (xentry * obj)) (n g : N) (o : obj) : Prop :=
  exists off, In ({| xnum := n; xgen := g; xdata := KUsed off true |}, o) l.
(** some entry of [l] is in the object stream [k] *)
Definition is_object_stream (l : list (xentry * obj)) (k : N) : Prop := exists e o i, In (e, o) l /\ xdata e = KComp k i.

Section Documents.
Variable supported : header -> Prop.

(** an entry that can be saved in a section with the stream [self] *)
Definition entry_ok (self : N * N) (l : list (xentry * obj)) (e : xentry) (o : obj) : Prop :=
  xnum e < 2 ^ 63 /\ xgen e <= 65535 /\
  match xdata e with
  | KFree next => next < 2 ^ 63
  | KUsed off u => u = true /\ storable o /\ ((xnum e, xgen e) = self -> (0 <= off < 2 ^ 63)%Z)
  | KComp k i => xgen e = 0 /\ i < 2 ^ 63 /\ writable o /\ k <> fst self /\
      exists m d, in_use l k 0 (OStream m d) /\ supported m
  end.

(** The document: entries in the order of their numbers, which begin with 0; the stream has an entry in use; its header names no older
    section.  The text of the objects is below 2^63 bytes. *)
Record document (self : N * N) (hdr : header) (l : list (xentry * obj)) : Prop := {
  dc_sorted : StronglySorted N.lt (map (fun p => xnum (fst p)) l);
  dc_first : exists p t, l = p :: t /\ xnum (fst p) = 0;
  dc_count : (Z.of_nat (List.length l) <= 2147483647)%Z;
  dc_entries : forall e o, In (e, o) l -> entry_ok self l e o;
  dc_self : exists o, in_use l (fst self) (snd self) o;
  dc_header : storable (OStream hdr []);
  dc_last : sm_find (str "Prev") hdr = None;
  dc_supported : supported (sm_remove (str "DecodeParms") hdr);
  dc_text : (Z.of_nat (List.length (flat_map (fun p => to_pdf (snd p)) l)) + 64 * Z.of_nat (List.length l) + 64 < 2 ^ 63)%Z
}.
End Documents.

(** Reading an object of the file at an offset.  The stream of the section itself is not read again, it is the object that was read
    when the file was opened (parser.cpp:632-636). *)
Definition object_at (rl : N -> N -> res Z) (file : bytes) (self : N * N) (stm : obj) (n g : N) (off : Z) : res obj :=
  if (n =? fst self) && (g =? snd self) then Ok stm
  else do '(_, _, o) <- load_entry parser_dictionary rl file {| xnum := n; xgen := g; xdata := KUsed off true |};; Ok o.
(** the numbers and objects in an object stream *)
Definition objects_in (rl : N -> N -> res Z) (decode : header -> bytes -> res bytes) (o : obj) : res (list (N * obj)) :=
  match o with
  | OStream m d => do b <- decode m d;; load_object_stream parser_dictionary rl m b
  | _ => Throw EConversion
  end.

(** the entries of the header that describe the section itself *)
Definition own_keys : list bytes := [str "W"; str "Index"; str "Size"; str "Length"; str "DecodeParms"].

(** What a program gets that reads the objects of the opened file: [start] is the object of every number and generation. *)
Definition reopened_objects (self : N * N) (l : list (xentry * obj)) (stm : obj) (start : N -> N -> obj) : Prop :=
  (forall n g, (forall e o, In (e, o) l -> (xnum e, xgen e) <> (n, g)) -> start n g = ONull) /\
  start (fst self) (snd self) = stm /\
  (forall e o, In (e, o) l -> (xnum e, xgen e) <> self ->
    match xdata e with
    | KFree _ => start (xnum e) (xgen e) = ONull
    | KComp _ _ => start (xnum e) (xgen e) = o
    | KUsed _ _ => ~ is_object_stream l (xnum e) -> same_object o (start (xnum e) (xgen e))
    end) /\
  (* an object stream keeps everything but its counts *)
  (forall k, is_object_stream l k -> exists m d m' d', in_use l k 0 (OStream m d) /\ start k 0 = OStream m' d' /\
    forall x, all_bytes x -> ~ In x [str "Length"; str "N"; str "First"] -> sm_find x m' = sm_find x m).

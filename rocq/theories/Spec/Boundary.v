(** What a C program may rely on when it passes handles around, in terms of the calls of Model/Boundary.v. *)
From Coq Require Import List String NArith.
From Verif Require Import Model.Boundary Model.Interface.
Import ListNotations.
Local Open Scope string_scope.

(** the program calls functions of the interface, other than the named ones *)
Definition avoiding (names : list string) (e : event) : Prop :=
  match e with
  | Call f _ _ => In f interface /\ ~ In (f_name f) names
  | Library _ _ => True
  end.

(** the functions that store or read a handle as a pointer to another class than the rest of the interface does *)
Definition mistaking : list string :=
  [ "OutlineItemColor_GetRed"; "OutlineItemColor_GetGreen"; "OutlineItemColor_GetBlue"; "PageObject_GetParent";
    "FilterBase_Decode"; "FlateDecodeFilter_Decode"; "DCTDecodeFilter_Decode"; "ASCII85DecodeFilter_Decode";
    "ASCIIHexDecodeFilter_Decode"; "LZWDecodeFilter_Decode"; "JPXDecodeFilter_Decode";
    "DictionaryObject_Create"; "Xref_Create"; "File_AllocateNewEntry" ].
(** the functions that follow a pointer without looking whether it is null *)
Definition unchecked : list string :=
  [ "PageContents_RecalculateStreamData"; "PageLabel_Prefix"; "PageLabel_Start"; "PageLabel_Style"; "DictionaryObject_Remove" ].
(** the parameters that may be null: callbacks of an observer, the data handed to callbacks, passwords *)
Definition may_be_null (f : fn) (p : nat) : Prop :=
  (f_name f = "FileWriterObserver_CreateCustom" /\ p <= 10) \/
  (f_name f = "SigningKey_CreateCustom" /\ p = 4) \/
  (f_name f = "Logging_SetCallbackLogger" /\ p = 2) \/
  (f_name f = "File_SetEncryptionPassword" /\ p = 1) \/
  (f_name f = "PKCS12Key_CreateFromFile" /\ p = 1) \/
  (f_name f = "PKCS12Key_CreateFromBuffer" /\ p = 1).
(** the p-th parameter is a pointer that has to be there *)
Definition demanded (f : fn) (p : nat) : Prop :=
  (exists x, nth_error (f_params f) p = Some x /\ (forall t, x <> PValue t)) /\ ~ may_be_null f p.

(** the codes that the functions return, c_values.h:50-59 and exceptions.h: 0 when all went well, 1 for a bad parameter *)
Definition all_went_well : N := 0%N.
Definition bad_parameter : N := 1%N.

(** a state of the program and the library after some calls *)
Definition reached (names : list string) (c : client) : Prop :=
  exists es code, Forall (avoiding names) es /\ play bases es start = Answer code c.
(** the object behind a handle is still there and of the class of the pointer *)
Definition sound_handle (hp : heap) (x : string * nat * string) : Prop :=
  let '(_, a, v) := x in exists o, at_ hp a = Some o /\ derives bases (o_class o) v = true.
(** an object exists as long as somebody has a reference to it, and counts the handles of the program *)
Definition counted (c : client) : Prop :=
  forall a o, at_ (c_heap c) a = Some o ->
    o_held o = List.length (filter (fun x => Nat.eqb (snd (fst x)) a) (c_owned c)) /\ o_held o + o_lib o > 0.

(** ** Particular calls *)
(** the function of the interface with the given name *)
Definition public (n : string) : fn :=
  match find (fun f => f_name f =? n) interface with Some f => f | None => Fn "" [] [] end.
(** a call that goes well; the object it hands out, if any, is new and of the named class *)
Definition calls (n : string) (args : list carg) (cl : string) : event :=
  Call (public n) args {| ch_work := Goes; ch_object := None; ch_class := cl |}.
(** the names but one *)
Definition but (n : string) (names : list string) : list string := filter (fun m => negb (m =? n)) names.

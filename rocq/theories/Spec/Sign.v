(** What a signature of a PDF file is, ISO 32000-1, 12.8.1. *)
From Coq Require Import List NArith ZArith Bool String.
From Coq Require Import List.
From Verif.Model Require Import Base SMap Object Token Parser FileWrite.
From Verif.Spec Require Import Strings Grammar.
Import ListNotations.
Local Open Scope N_scope.

(** the bytes of a file a byte range covers: [length] bytes from [start] on *)
Definition slice (start length : Z) (file : bytes) : bytes := firstn (Z.to_nat length) (skipn (Z.to_nat start) file).

(** The object that begins at [offset] of [file] is a signature dictionary of the whole file made with the signing function [sign]:
    - it has ByteRange [0 a b c], the two ranges reach from the beginning of the file to its end, leaving out a gap;
    - the gap is exactly the text of the value of Contents, a hexadecimal string;
    - that string is the signature of the covered bytes of this file, possibly followed by zero bytes. *)
Definition signed_file (rl : N -> N -> res Z) (sign : bytes -> res bytes) (file : bytes) (offset : nat) (num gen : N) (m : list (bytes * obj)) : Prop :=
  exists rest a b c signature zeros,
    read_indirect_object parser_dictionary rl (skipn offset file) = Ok (num, gen, ODict m, rest) /\
    sm_find (str "ByteRange") m = Some (OArr [OInt 0; OInt a; OInt b; OInt c]) /\
    sm_find (str "Contents") m = Some (OHex (signature ++ repeat 0 zeros)) /\
    (0 < a /\ a < b /\ 0 < c /\ b + c = Z.of_nat (List.length file))%Z /\
    object_text (slice a (b - a) file) (OHex (signature ++ repeat 0 zeros)) /\
    sign (slice 0 a file ++ slice b c file) = Ok signature.

(** the entries that identify the signature and its maker *)
Definition has_settings (cert name location reason time : option bytes) (m : list (bytes * obj)) : Prop :=
  sm_find (str "Type") m = Some (OName (str "Sig")) /\ sm_find (str "Filter") m = Some (OName (str "Adobe.PPKLite")) /\
  sm_find (str "SubFilter") m = Some (OName (str "adbe.pkcs7.detached")) /\
  sm_find (str "Cert") m = option_map OHex cert /\ sm_find (str "Name") m = option_map OLit name /\
  sm_find (str "Location") m = option_map OLit location /\ sm_find (str "Reason") m = option_map OLit reason /\
  sm_find (str "M") m = option_map OLit time.

(** every text given for the dictionary is made of bytes *)
Definition made_of_bytes (l : list (option bytes)) : Prop := forall v, In (Some v) l -> all_bytes v.

(** [signed] is [file] with two stretches of white space replaced by texts of the same length *)
Definition filled_in (file signed : bytes) (room1 room2 : nat) : Prop := exists p x q y r,
  file = p ++ repeat 32 room1 ++ q ++ repeat 32 room2 ++ r /\ signed = p ++ x ++ q ++ y ++ r /\
  List.length x = room1 /\ List.length y = room2.

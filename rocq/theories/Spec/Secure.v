(** What may be expected of encrypted documents that are saved and copied. *)
From Coq Require Import List NArith ZArith Bool String.
From Coq Require Import List.
From Verif.Model Require Import Base SMap Object Digest Encryption Secure.
From Verif.Spec Require Import Encryption.
Import ListNotations.
Local Open Scope N_scope.

(** all strings of an object, at any depth *)
Fixpoint strings_of (o : obj) : list bytes :=
  match o with
  | OLit v | OHex v => [v]
  | OArr l => flat_map strings_of l
  | ODict l => flat_map (fun kv => strings_of (snd kv)) l
  | _ => []
  end.

(** data that OpenSSL's int lengths can hold *)
Definition short (s : bytes) : Prop := (Z.of_nat (List.length s) < 2147483647)%Z.

(** The object [num] [gen] is an ordinary object of a file that is not encrypted, or is encrypted with RC4 and was opened: [key] is
    the file key, the object is in use, is not the encryption dictionary and is not in an object stream. *)
Definition rc4_object (c : crypt) (num gen : N) (key : bytes) : Prop :=
  current_key c = Ok key /\ c_compressed c num gen = Some false /\ c_place c <> Some (num, gen) /\ num <> 0 /\
  (exists a, data_algorithm (c_dict c) (str "StmF") = Ok a) /\ (exists a, data_algorithm (c_dict c) (str "StrF") = Ok a) /\
  (forall name, filter_algorithm (c_dict c) name <> Ok AAES).
Definition ordinary (f : vault) (num gen : N) : Prop :=
  match v_crypt f with
  | Some c => exists key, rc4_object c num gen key
  | None => True
  end.

(** encryption that was taken away was taken away by the library, which notes it *)
Definition notes_removal (from to : vault) : Prop := v_crypt from <> None -> v_crypt to = None -> v_dirty to = true.

(** the strings [w] that a file keeps for the strings [v]: enciphered with the key of the standard, unless nothing is to be *)
Definition kept_as (f : vault) (num gen : N) (exempt : bool) (v w : list bytes) : Prop :=
  match v_crypt f with
  | Some c => if exempt then w = v else forall key, current_key c = Ok key -> w = map (rc4 (data_key key num gen false)) v
  | None => w = v
  end.

Definition not_stream (o : obj) : Prop := match o with OStream _ _ => False | _ => True end.

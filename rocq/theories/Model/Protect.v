(** Adding and removing the protection of a document: semantics/utils/document_encryption_settings.cpp, Document::AddEncryption and
    RemoveEncryption (semantics/objects/document.cpp).  Keys and passwords are in Model/Encryption.v, the objects in Model/Secure.v. *)
From Coq Require Import List NArith ZArith Bool String.
From Verif.Model Require Import Base SMap Object Xref Chain Encryption.
Import ListNotations.
Local Open Scope Z_scope.

(** UserAccessPermissionFlags, document_encryption_settings.h:17-28, in the order of GetPermissionInteger *)
Definition permission_flags : list Z := [4; 8; 16; 32; 256; 512; 1024; 2048].
(** one "if" of GetPermissionInteger, document_encryption_settings.cpp:18-48; [int32_t] in two's complement *)
Definition permission_step (value p flag : Z) : Z := if Z.land value flag =? 0 then p else Z.land p (Z.lnot flag).
(** GetPermissionInteger, document_encryption_settings.cpp:15-51 *)
Definition permission_integer (value : Z) : Z := fold_left (permission_step value) permission_flags (-1).

(** what the program asks for: the settings with their permission flags *)
Definition requested (user owner : bytes) (alg : algorithm) (bits flags : Z) : settings :=
  {| s_user := user; s_owner := owner; s_alg := alg; s_bits := bits; s_perm := permission_integer flags |}.

(** The trailer of the newest section, document.cpp:942-943: "Insert" of the reference; the chain begins with the newest section *)
Definition with_trailer (t : list (bytes * obj)) (s : section) : section :=
  {| s_kind := s_kind s; s_entries := s_entries s; s_hybrid := s_hybrid s; s_trailer := t |}.
Definition encrypt_trailer (r : obj) (c : chain) : chain :=
  match c with
  | [] => []
  | s :: t => with_trailer (sm_insert (str "Encrypt") r (s_trailer s)) s :: t
  end.
(** RemoveEncryption, document.cpp:978-984 *)
Definition decrypt_trailer (c : chain) : chain :=
  match c with
  | [] => []
  | s :: t => with_trailer (sm_remove (str "Encrypt") (s_trailer s)) s :: t
  end.

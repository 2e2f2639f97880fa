(** Licenses: utils/license_info.cpp.

    Parameters: the JSON parser; the verification of a signature with a certificate (CheckSignature with OpenSSL, license_info.cpp:
    243-291) and of a chain of certificates against the embedded one (CheckCertificateChain, 347-434), both of which throw when a
    certificate cannot be read; std::get_time with "%Y-%m-%d" followed by std::mktime, as one function from a text to seconds, [None]
    when mktime gives -1; the embedded list of refused serial numbers; the time at which the library was built. *)
From Coq Require Import List NArith ZArith Bool String.
From Coq Require Import List.
From Verif.Model Require Import Base Numbers Entries.
Import ListNotations.
Local Open Scope N_scope.

(** nlohmann::json; numbers and booleans are not told apart.  The keys of an object are different. *)
Inductive json : Type := JNull | JString (s : bytes) | JArray (l : list json) | JObject (l : list (bytes * json)) | JOther.

(** operator[] of a json that is not const: null becomes an object, a key that is not there gets null, anything else throws *)
Fixpoint lookup (k : bytes) (l : list (bytes * json)) : json :=
  match l with
  | [] => JNull
  | (k', v) :: t => if beq k k' then v else lookup k t
  end.
Definition member (k : bytes) (j : json) : res json :=
  match j with
  | JNull => Ok JNull
  | JObject l => Ok (lookup k l)
  | _ => Throw EGeneral
  end.
Definition text_of (j : json) : res bytes := match j with JString s => Ok s | _ => Throw EGeneral end.
Fixpoint texts_of (l : list json) : res (list bytes) :=
  match l with
  | [] => Ok []
  | j :: t => do s <- text_of j;; do r <- texts_of t;; Ok (s :: r)
  end.

(** LicenseInfo::m_update_valid and m_temporary_expiration, license_info.cpp:33-34 *)
Record state : Type := { update_valid : bool; temporary_expiration : bytes }.
Definition initial : state := {| update_valid := false; temporary_expiration := [] |}.

Section License.
Variable parse : bytes -> option json.
Variable check_signature : bytes -> bytes -> bytes -> res bool.   (* content, signature, certificate *)
Variable check_chain : list bytes -> res bool.
Variable read_date : bytes -> option Z.
Variable refused_serials : list bytes.
Variable build_time : Z.

(** CheckBlacklist, license_info.cpp:223-241; MiscUtils::CaseInsensitiveCompare, misc_utils.cpp:338-348 *)
Definition check_blacklist (serial : bytes) : bool := existsb (same_letters serial) refused_serials.
(** CheckUpdateExpiration, license_info.cpp:312-345, and CheckTemporaryExpiration, 293-310: is it over? *)
Definition expired (expiration : bytes) (now : Z) : res bool :=
  match read_date expiration with
  | Some t => Ok (t <? now)%Z
  | None => Throw EGeneral
  end.

(** lines 84-97: what stands before and behind the first '.' of the version *)
Fixpoint split_version (s : bytes) : option (bytes * bytes) :=
  match s with
  | [] => None
  | c :: t => if c =? 46 then Some ([], t)
              else match split_version t with Some (a, b) => Some (c :: a, b) | None => None end
  end.
Definition optional_text (j : json) : bytes := match j with JString s => s | _ => [] end.

(** LicenseInfo::SetLicense, license_info.cpp:72-180: the new m_temporary_expiration.  The signed content, lines 140-148, is the fields
    one after another. *)
Definition set_license_data (data : bytes) : res bytes :=
  match parse data with
  | None => Throw EGeneral
  | Some root =>
      do version_node <- member (str "version") root;;
      do version <- text_of version_node;;
      match split_version version with
      | None => Throw EGeneral
      | Some (major_text, minor_text) =>
          do major <- stoi 10 major_text;;
          do _ <- stoi 10 minor_text;;
          if negb (major =? 1)%Z then Throw EGeneral
          else
            do data_node <- member (str "data") root;;
            do owner_node <- member (str "owner") data_node;;
            do note_node <- member (str "note") data_node;;
            do serial_node <- member (str "serial") data_node;;
            do updates_node <- member (str "updates_expiration") data_node;;
            do temporary_node <- member (str "temporary_expiration") data_node;;
            do owner <- text_of owner_node;;
            do note <- text_of note_node;;
            do serial <- text_of serial_node;;
            do updates <- text_of updates_node;;
            if check_blacklist serial then Throw EGeneral
            else
              do over <- expired updates build_time;;
              if over then Throw EGeneral
              else
                do signature_node <- member (str "signature") root;;
                do certificates_node <- member (str "certificates") root;;
                do signature <- text_of signature_node;;
                match certificates_node with
                | JArray (first :: others) =>
                    let content := owner ++ note ++ serial ++ updates ++ optional_text temporary_node in
                    do certificate <- text_of first;;
                    do valid <- check_signature content signature certificate;;
                    if negb valid then Throw EGeneral
                    else
                      do certificates <- texts_of (first :: others);;
                      do chain <- check_chain certificates;;
                      if negb chain then Throw EGeneral else Ok (optional_text temporary_node)
                | _ => Throw EGeneral
                end
      end
  end.

(** LicenseInfo_SetLicenseFile and LicenseInfo_SetLicenseBuffer: lines 165-174 change the state only at the end *)
Definition set_license (s : state) (data : bytes) : state * res unit :=
  match set_license_data data with
  | Ok t => ({| update_valid := true; temporary_expiration := t |}, Ok tt)
  | Throw e => (s, Throw e)
  | Undef => (s, Undef)
  | NoFuel => (s, NoFuel)
  end.

(** LicenseInfo::IsValid, license_info.cpp:197-217; [enforced]: the library was compiled with ENFORCE_LICENSE_CHECKS *)
Definition is_valid (enforced : bool) (s : state) (now : Z) : res bool :=
  if negb enforced then Ok true
  else if negb (update_valid s) then Ok false
  else
    match temporary_expiration s with
    | [] => Ok true
    | t => do over <- expired t now;; Ok (negb over)
    end.
(** LicenseInfo::IsTemporary, license_info.cpp:219-221 *)
Definition is_temporary (s : state) : bool := match temporary_expiration s with [] => false | _ => true end.

(** a program gives licenses one after another *)
Fixpoint give_all (s : state) (l : list bytes) : state * list (res unit) :=
  match l with
  | [] => (s, [])
  | d :: t => let '(s1, r) := set_license s d in let '(s2, rs) := give_all s1 t in (s2, r :: rs)
  end.
End License.

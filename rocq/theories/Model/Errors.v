(** The last error of a thread: utils/errors.cpp, the C interface to it (implementation/utils/c_errors.cpp) and the conversion of
    exceptions to error codes at the boundary of the C interface (implementation/c_helper.h:17-43).

    Simplification: a call of the library is what it does to the last error, that is whether it returns or which exception leaves it. *)
From Coq Require Import List NArith Bool String.
From Verif.Model Require Import Base.
Import ListNotations.
Local Open Scope N_scope.

(** ExceptionBase::Type, utils/exceptions.h:15-42 *)
Inductive error_kind : Set :=
| KSuccess | KInvalidParameter | KNotSupported | KUserCancelled | KZlibDataError | KInvalidLicense | KLicenseRequired | KInsufficientSpace
| KConversion | KFileDisposed | KFileNotInitialized | KObjectMissing | KParseException | KInvalidPassword | KDuplicateKey
| KOptionalEntryMissing | KSemanticContext | KGeneral.
Definition code (k : error_kind) : N :=
  match k with
  | KSuccess => 0 | KInvalidParameter => 1 | KNotSupported => 2 | KUserCancelled => 3 | KZlibDataError => 4 | KInvalidLicense => 5
  | KLicenseRequired => 6 | KInsufficientSpace => 7
  | KConversion => 65536 | KFileDisposed => 65537 | KFileNotInitialized => 65538 | KObjectMissing => 65539 | KParseException => 65540
  | KInvalidPassword => 65541 | KDuplicateKey => 65542
  | KOptionalEntryMissing => 268435456 | KSemanticContext => 268435457
  | KGeneral => 4294967295
  end.

(** GetValueName, c_errors.cpp:29-57, with the values of implementation/c_values.cpp:10-36; the first that matches.  sizeof of the
    constant counts its terminator. *)
Definition value_names : list (N * bytes) :=
  [ (code KSuccess, str "VANILLAPDF_ERROR_SUCCESS"); (code KInvalidParameter, str "VANILLAPDF_ERROR_PARAMETER_VALUE");
    (code KNotSupported, str "VANILLAPDF_ERROR_NOT_SUPPORTED"); (code KUserCancelled, str "VANILLAPDF_ERROR_USER_CANCELLED");
    (code KZlibDataError, str "VANILLAPDF_ERROR_ZLIB_DATA"); (code KInvalidLicense, str "VANILLAPDF_ERROR_INVALID_LICENSE");
    (code KLicenseRequired, str "VANILLAPDF_ERROR_LICENSE_REQUIRED"); (code KInsufficientSpace, str "VANILLAPDF_ERROR_INSUFFICIENT_SPACE");
    (code KGeneral, str "VANILLAPDF_ERROR_GENERAL");
    (code KConversion, str "VANILLAPDF_ERROR_CONVERSION"); (code KFileDisposed, str "VANILLAPDF_ERROR_FILE_DISPOSED");
    (code KFileNotInitialized, str "VANILLAPDF_ERROR_FILE_NOT_INITIALIZED"); (code KObjectMissing, str "VANILLAPDF_ERROR_OBJECT_MISSING");
    (code KParseException, str "VANILLAPDF_ERROR_PARSE_EXCEPTION"); (code KInvalidPassword, str "VANILLAPDF_ERROR_INVALID_PASSWORD");
    (code KDuplicateKey, str "VANILLAPDF_ERROR_DUPLICATE_KEY");
    (code KOptionalEntryMissing, str "VANILLAPDF_ERROR_OPTIONAL_ENTRY_MISSING"); (code KSemanticContext, str "VANILLAPDF_ERROR_SEMANTIC_CONTEXT") ].
Definition value_name (c : N) : option bytes := option_map (fun e => snd e ++ [0]) (find (fun e => fst e =? c) value_names).

(** std::memcpy of [n] bytes from the beginning of [from] to the beginning of [to] *)
Definition copy_bytes (n : nat) (from to : bytes) : res bytes :=
  if (Nat.leb n (List.length from) && Nat.leb n (List.length to))%bool then Ok (firstn n from ++ skipn n to) else Undef.

(** Errors_GetPrintableErrorTextLength, c_errors.cpp:66-80 *)
Definition printable_length (c : N) : N * option N :=
  match value_name c with Some t => (code KSuccess, Some (N.of_nat (List.length t))) | None => (code KGeneral, None) end.
(** Errors_GetPrintableErrorText, c_errors.cpp:82-104; [data] is the memory of the caller, [size] what the caller says its size is *)
Definition printable_text (c : N) (data : bytes) (size : N) : res (N * bytes) :=
  match value_name c with
  | None => Ok (code KGeneral, data)
  | Some t =>
      if size <? N.of_nat (List.length t) then Ok (code KGeneral, data)
      else do d <- copy_bytes (List.length t) t data;; Ok (code KSuccess, d)
  end.

(** what a thread has: Errors::m_error, m_message_length and m_message (errors.cpp:9-11); MAX_MESSAGE_SIZE is 256 (constants.h:31) *)
Record slot : Type := { s_error : N; s_length : nat; s_message : bytes }.
Definition max_message : nat := 256.
Definition fresh : slot := {| s_error := 0; s_length := 0; s_message := repeat 0 max_message |}.

(** the characters a [const char*] stands for *)
Fixpoint c_string (s : bytes) : bytes :=
  match s with
  | [] => []
  | b :: t => if b =? 0 then [] else b :: c_string t
  end.
Definition set_at (n : nat) (b : N) (l : bytes) : bytes := firstn n l ++ b :: skipn (S n) l.
(** Errors::SetLastError, errors.cpp:17-19 *)
Definition set_error (c : N) (s : slot) : slot := {| s_error := c; s_length := s_length s; s_message := s_message s |}.
(** Errors::SetLastErrorMessage, errors.cpp:33-45, of a [const char*] to [text] and a terminator *)
Definition set_message (text : bytes) (s : slot) : res slot :=
  let limited := Nat.min (List.length text + 1) (max_message - 1) in
  do m <- copy_bytes limited (text ++ [0]) (s_message s);;
  Ok {| s_error := s_error s; s_length := limited; s_message := set_at limited 0 m |}.

(** how a call ends: it returns a code (RETURN_ERROR_IF_NULL and "return VANILLAPDF_ERROR_...", c_helper.h:12-13), or an exception
    leaves the library *)
Inductive ending : Type :=
| Returns (c : N)
| Throws (k : error_kind) (what : bytes)   (* ExceptionBase *)
| ThrowsStd (what : bytes)                 (* std::exception *)
| ThrowsOther.                             (* anything else *)
(** CATCH_VANILLAPDF_EXCEPTIONS, c_helper.h:15-37: the code the call returns *)
Definition call (e : ending) (s : slot) : res (N * slot) :=
  match e with
  | Returns c => Ok (c, s)
  | Throws k what => do s' <- set_message (c_string what) (set_error (code k) s);; Ok (code k, s')
  | ThrowsStd what => do s' <- set_message (c_string what) (set_error (code KGeneral) s);; Ok (code KGeneral, s')
  | ThrowsOther => Ok (code KGeneral, set_error (code KGeneral) s)
  end.
(** Errors_GetLastErrorMessage, c_errors.cpp:113-126 *)
Definition last_message (s : slot) (data : bytes) (size : N) : res (N * bytes) :=
  if size <? N.of_nat (s_length s) then Ok (code KGeneral, data)
  else do d <- copy_bytes (s_length s) (s_message s) data;; Ok (code KSuccess, d).

(** The threads of a program: the variables are thread_local (errors.cpp:9-11).  A history is a list of calls, each with its thread,
    in any interleaving; the result is the codes the calls return and the variables of every thread. *)
Fixpoint history (h : list (N * ending)) (st : N -> slot) : res (list N * (N -> slot)) :=
  match h with
  | [] => Ok ([], st)
  | (t, e) :: h' =>
      do '(c, s) <- call e (st t);;
      do '(cs, st') <- history h' (fun x => if x =? t then s else st x);;
      Ok (c :: cs, st')
  end.

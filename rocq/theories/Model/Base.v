(** Common vocabulary of the model: bytes, outcomes of C++ code, small list helpers.

    - A byte is an [N] below 256; a buffer (utils/buffer.h:17-140, a vector of char) is a [list N].
    - [res A] is the outcome of a piece of C++ code. *)
From Coq Require Import List NArith ZArith Bool String Ascii.
Import ListNotations.
Local Open Scope N_scope.

Definition bytes := list N.

Definition is_byte (b : N) : Prop := b < 256.
Definition all_bytes (s : bytes) : Prop := Forall is_byte s.

(** Kinds of C++ exceptions (utils/exceptions.h, syntax/exceptions/syntax_exceptions.h, std exceptions). *)
Inductive exn : Set :=
| EGeneral        (* GeneralException *)
| EParse          (* ParseException *)
| EConversion     (* ConversionException thrown by ValueConvertUtils / ConvertUtils *)
| EStdInvalid     (* std::invalid_argument from stoi/stoll *)
| EStdRange       (* std::out_of_range, std::overflow_error *)
| EDuplicateKey   (* DuplicateKeyException *)
| EObjectMissing  (* ObjectMissingException, and missing entries of xref tables *)
| ENotSupported   (* NotSupportedException *)
| EUserCancelled
| EPassword       (* InvalidPasswordException *)
| EFileDisposed
| ENotInitialized (* FileNotInitializedException, File::IsInitialized() false *)
| ENotModelled.   (* the code goes on here, the model stops *)

(** Outcome of a C++ computation.  [Undef] is undefined behaviour, [NoFuel] says that a loop ran longer than the bound the
    model gave it (used only where the C++ loop has no bound). *)
Inductive res (A : Type) : Type :=
| Ok (a : A)
| Throw (e : exn)
| Undef
| NoFuel.
Arguments Ok {A} a.
Arguments Throw {A} e.
Arguments Undef {A}.
Arguments NoFuel {A}.

Definition rbind {A B : Type} (m : res A) (f : A -> res B) : res B :=
  match m with
  | Ok a => f a
  | Throw e => Throw e
  | Undef => Undef
  | NoFuel => NoFuel
  end.

Definition rmap {A B : Type} (f : A -> B) (m : res A) : res B := rbind m (fun a => Ok (f a)).

Notation "'do' x <- m ;; k" := (rbind m (fun x => k))
  (at level 200, x name, m at level 100, k at level 200, right associativity).
Notation "'do' ' p <- m ;; k" := (rbind m (fun z => match z with p => k end))
  (at level 200, p pattern, m at level 100, k at level 200, right associativity).

(** Character literals: [str "abc"] is the byte list of the ASCII text. *)
Fixpoint str (s : string) : bytes :=
  match s with
  | EmptyString => []
  | String a s' => N_of_ascii a :: str s'
  end.

Definition beq (a b : bytes) : bool :=
  if list_eq_dec N.eq_dec a b then true else false.

(** Interpretation of a byte as [char] on platforms with signed char (x86/x64). *)
Definition schar (b : N) : Z := if b <? 128 then Z.of_N b else (Z.of_N b - 256)%Z.

(** ValueConvertUtils::SafeConvert<unsigned char, int>, utils/conversion_utils.h:57-75: signed source, unsigned target. *)
Definition to_uchar (v : Z) : res N :=
  if (v <? 0)%Z then Throw EConversion
  else if (v <=? 255)%Z then Ok (Z.to_N v) else Throw EConversion.

(** Longest prefix whose elements satisfy [f], and the rest. *)
Fixpoint span {A : Type} (f : A -> bool) (l : list A) : list A * list A :=
  match l with
  | [] => ([], [])
  | a :: t => if f a then let '(p, r) := span f t in (a :: p, r) else ([], l)
  end.

Fixpoint nrange (from : N) (count : nat) : list N :=
  match count with
  | O => []
  | S k => from :: nrange (from + 1) k
  end.

(** Object::Equals and Object::Hash on values. *)
From Coq Require Import List NArith ZArith Bool.
From Verif.Model Require Import Base Arith Buffer.
Import ListNotations.

(** ** Doubles.  A finite double is [dm * 2 ^ de]; infinities and NaN are not modelled (the parser never makes them). *)
Record dbl := { dm : Z; de : Z }.
Definition dbl_eqb (a b : dbl) : bool :=
  let e := Z.min (de a) (de b) in (dm a * 2 ^ (de a - e) =? dm b * 2 ^ (de b - e))%Z.
(** static_cast of a double to an integer: toward zero *)
Definition dbl_trunc (a : dbl) : Z := if (0 <=? de a)%Z then (dm a * 2 ^ de a)%Z else Z.quot (dm a) (2 ^ (- de a)).
(** compare a double with an integer *)
Definition dbl_le_int (a : dbl) (z : Z) : bool :=
  if (0 <=? de a)%Z then (dm a * 2 ^ de a <=? z)%Z else (dm a <=? z * 2 ^ (- de a))%Z.
Definition int_le_dbl (z : Z) (a : dbl) : bool :=
  if (0 <=? de a)%Z then (z <=? dm a * 2 ^ de a)%Z else (z * 2 ^ (- de a) <=? dm a)%Z.
(** static_cast of an integer to a double: 53 significant bits, nearest, ties to even *)
Definition dbl_of_int (z : Z) : dbl :=
  let k := (Z.log2 (Z.abs z) - 52)%Z in
  if (k <=? 0)%Z then {| dm := z; de := 0 |}
  else
    let q := (Z.abs z / 2 ^ k)%Z in
    let r := (Z.abs z mod 2 ^ k)%Z in
    let h := (2 ^ (k - 1))%Z in
    let q' := if (r <? h)%Z then q else if (h <? r)%Z then (q + 1)%Z else if Z.even q then q else (q + 1)%Z in
    {| dm := (Z.sgn z * q')%Z; de := k |}.

(** ValueConvertUtils::SafeConvert<big_int>(double), conversion_utils.h:18-23, 40-55: the bounds are converted to double, so the
    upper one is 2^63, whose cast is undefined. *)
Definition dbl_to_big_int (a : dbl) : res Z :=
  if int_le_dbl (- 2 ^ 63) a && dbl_le_int a (2 ^ 63) then
    let t := dbl_trunc a in if (t =? 2 ^ 63)%Z then Undef else Ok t
  else Throw EConversion.

(** NumericObjectBackend, numeric_object.h:48-63 *)
Inductive numeric : Type :=
| QSigned (z : Z)
| QUnsigned (z : Z)
| QReal (r : dbl).
(** GetIntegerValue, numeric_object.cpp:143-158 *)
Definition integer_value (q : numeric) : res Z :=
  match q with
  | QSigned z => Ok z
  | QUnsigned z => safe_convert int64_t uint64_t z
  | QReal r => dbl_to_big_int r
  end.
(** GetRealValue, numeric_object.cpp:178-194 *)
Definition real_value (q : numeric) : res dbl :=
  match q with
  | QReal r => Ok r
  | QSigned z => Ok (dbl_of_int z)
  | QUnsigned z => do i <- safe_convert int64_t uint64_t z;; Ok (dbl_of_int i)
  end.

(** Objects as values.  [VInt]/[VReal]: IntegerObject/RealObject around a backend.  [VStr hex v]: string object.
    [VStream]: header entries and GetBodyEncoded.  Simplification: the encoded body is a given byte string. *)
Inductive value : Type :=
| VNull
| VBool (b : bool)
| VInt (q : numeric)
| VReal (q : numeric)
| VName (n : bytes)
| VStr (hex : bool) (v : bytes)
| VRef (num gen : N)
| VArr (l : list value)
| VDict (l : list (bytes * value))
| VStream (l : list (bytes * value)) (body : bytes).

(** The indirect objects of the file.  A missing object is null (File::GetIndirectObject, file.cpp:793-901). *)
Definition file_objects := list (N * N * value).
Fixpoint find_indirect (f : file_objects) (num gen : N) : value :=
  match f with
  | [] => VNull
  | (n, g, v) :: t => if ((n =? num) && (g =? gen))%N then v else find_indirect t num gen
  end.

(** DereferenceHelper::Get, object_utils.h:132-159, with its visited map.  [fuel] bounds the recursion. *)
Definition seen (num gen : N) (visited : list (N * N)) : bool :=
  existsb (fun '(n, g) => ((n =? num) && (g =? gen))%N) visited.
Fixpoint dereference (fuel : nat) (f : file_objects) (visited : list (N * N)) (v : value) : res value :=
  match fuel with
  | O => NoFuel
  | S fuel' =>
      match v with
      | VRef n g =>
          if seen n g visited then Throw EGeneral
          else dereference fuel' f ((n, g) :: visited) (find_indirect f n g)
      | _ => Ok v
      end
  end.
Definition deref (f : file_objects) (v : value) : res value := dereference (S (S (length f))) f [] v.

(** ** Equals *)
Section Equals.
Variable f : file_objects.

(** IsType<T>/ConvertTo<T> of the other object, object_utils.h:163-201: dereferences; IsType<Integer> accepts reals and the other
    way round, sharing the backend (76-126). *)
Definition as_number (v : value) : res (option numeric) :=
  do d <- deref f v;; match d with VInt q | VReal q => Ok (Some q) | _ => Ok None end.

(** NullObject (null_object.cpp:9-23), BooleanObject (boolean_object.cpp:30-37), IntegerObject (integer_object.cpp:21-28 and
    integer_object.h:116), RealObject (real_object.cpp:34-41), NameObject (name_object.cpp:91-102), StringObjectBase
    (string_object.cpp:136-143, string_object.h:27), IndirectReferenceObject (indirect_reference_object.cpp:199-212, 240-247),
    MixedArrayObject (mixed_array_object.cpp:197-219), DictionaryObject (dictionary_object.cpp:250-288), StreamObject
    (stream_object.cpp:618-640). *)
Fixpoint equals (a b : value) {struct a} : res bool :=
  match a with
  | VNull => do d <- deref f b;; match d with VNull => Ok true | _ => Ok false end
  | VBool x => do d <- deref f b;; match d with VBool y => Ok (Bool.eqb x y) | _ => Ok false end
  | VInt q =>
      do o <- as_number b;;
      match o with
      | Some q' => do x <- integer_value q;; do y <- integer_value q';; Ok (x =? y)%Z
      | None => Ok false
      end
  | VReal q =>
      do o <- as_number b;;
      match o with
      | Some q' => do x <- real_value q;; do y <- real_value q';; Ok (dbl_eqb x y)
      | None => Ok false
      end
  | VName n => do d <- deref f b;; match d with VName m => Ok (buffer_equals n m) | _ => Ok false end
  | VStr _ v => do d <- deref f b;; match d with VStr _ w => Ok (buffer_equals v w) | _ => Ok false end
  | VRef n g => match b with VRef n' g' => Ok ((n =? n') && (g =? g'))%N | _ => Ok false end
  | VArr l =>
      do d <- deref f b;;
      match d with
      | VArr l' =>
          if negb (Nat.eqb (length l) (length l')) then Ok false
          else
            (fix loop (l l' : list value) {struct l} : res bool :=
               match l, l' with
               | x :: t, y :: t' => do r <- equals x y;; if r then loop t t' else Ok false
               | _, _ => Ok true
               end) l l'
      | _ => Ok false
      end
  | VDict l =>
      do d <- deref f b;;
      match d with
      | VDict l' =>
          if negb (Nat.eqb (length l) (length l')) then Ok false
          else
            (fix loop (l l' : list (bytes * value)) {struct l} : res bool :=
               match l, l' with
               | (k, x) :: t, (k', y) :: t' =>
                   if buffer_equals k k' then do r <- equals x y;; if r then loop t t' else Ok false else Ok false
               | _, _ => Ok true
               end) l l'
      | _ => Ok false
      end
  | VStream l body =>
      do d <- deref f b;;
      match d with
      | VStream l' body' =>
          (* the headers are dictionaries *)
          do r <- (if negb (Nat.eqb (length l) (length l')) then Ok false
                   else
                     (fix loop (l l' : list (bytes * value)) {struct l} : res bool :=
                        match l, l' with
                        | (k, x) :: t, (k', y) :: t' =>
                            if buffer_equals k k' then do r <- equals x y;; if r then loop t t' else Ok false else Ok false
                        | _, _ => Ok true
                        end) l l');;
          if r then Ok (buffer_equals body body') else Ok false
      | _ => Ok false
      end
  end.
End Equals.

(** ** Hash.  The standard library's hash functions are parameters. *)
Section HashValue.
Variables (hash_bool : bool -> N) (hash_long hash_ulong : Z -> N) (hash_double : dbl -> N) (hash_char hash_num hash_gen : N -> N).

(** Buffer::Hash, buffer.cpp:17-27 *)
Definition hash_buffer (b : bytes) : N := fold_left (fun acc c => N.lxor acc (hash_char c)) b 0%N.
(** NumericObjectBackend::Hash, numeric_object.cpp:247-269 *)
Definition hash_numeric (q : numeric) : N :=
  match q with QReal r => hash_double r | QSigned z => hash_long z | QUnsigned z => hash_ulong z end.

(** The Hash functions of all objects (without caches, see Model/Heap.v) *)
Fixpoint hash_value (v : value) : N :=
  match v with
  | VNull => 0
  | VBool b => hash_bool b
  | VInt q | VReal q => hash_numeric q
  | VName n => hash_buffer n
  | VStr _ s => hash_buffer s
  | VRef n g => N.lxor (hash_num n) (hash_gen g)
  | VArr l => fold_left (fun acc x => N.lxor acc (hash_value x)) l 0
  | VDict l => fold_left (fun acc '(k, x) => N.lxor (N.lxor acc (hash_buffer k)) (hash_value x)) l 0
  | VStream l _ => fold_left (fun acc '(k, x) => N.lxor (N.lxor acc (hash_buffer k)) (hash_value x)) l 0
  end%N.
End HashValue.

(** Collections with indexes: utils/buffer_array.cpp, contents/content_stream_instruction_base.h, contents/content_stream_objects.h,
    contents/content_stream_operation_generic.cpp, semantics/objects/annotations.cpp, fields.cpp and digital_signature.cpp, with their
    functions of the C interface.

    Simplification: the elements are any values.  An iterator moved beyond the end of its vector, and the insertion or removal there, is
    undefined behaviour. *)
From Coq Require Import List NArith ZArith Bool.
From Verif.Model Require Import Base Object Containers.
Import ListNotations.
Local Open Scope N_scope.

(** the calls on a collection that can be changed *)
Inductive call (V : Type) : Type :=
| Size
| At (i : N)
| Append (v : V)
| Insert (i : N) (v : V)
| Remove (i : N)
| Clear.
Arguments Size {V}. Arguments At {V} i. Arguments Append {V} v. Arguments Insert {V} i v. Arguments Remove {V} i. Arguments Clear {V}.
(** what the program is told *)
Inductive told (V : Type) : Type := Count (n : N) | Value (v : V) | Done.
Arguments Count {V} n. Arguments Value {V} v. Arguments Done {V}.

Section Calls.
Context {V : Type}.

(** vector::insert and vector::erase at begin() + i *)
Definition insert_at (l : list V) (i : N) (v : V) : res (list V) :=
  if i <=? arr_size l then Ok (firstn (N.to_nat i) l ++ v :: skipn (N.to_nat i) l) else Undef.
Definition erase_at (l : list V) (i : N) : res (list V) :=
  if i <? arr_size l then Ok (firstn (N.to_nat i) l ++ skipn (S (N.to_nat i)) l) else Undef.

(** BufferArray_GetSize, _At, _Append, _Insert and _Remove, c_buffer_array.cpp:19-81; BufferArray, buffer_array.h:27-31 and
    buffer_array.cpp:7-23.  VANILLAPDF_ERROR_OBJECT_MISSING is EObjectMissing.  There is no BufferArray_Clear. *)
Definition buffer_array (l : list V) (c : call V) : list V * res (told V) :=
  match c with
  | Size => (l, Ok (Count (arr_size l)))
  | At i => (l, do v <- arr_get l i;; Ok (Value v))
  | Append v => (l ++ [v], Ok Done)
  | Insert i v => match insert_at l i v with Ok l' => (l', Ok Done) | Throw e => (l, Throw e) | Undef => (l, Undef) | NoFuel => (l, NoFuel) end
  | Remove i =>
      if arr_size l <? i then (l, Undef)
      else if i =? arr_size l then (l, Throw EObjectMissing)
      else match erase_at l i with Ok l' => (l', Ok Done) | Throw e => (l, Throw e) | Undef => (l, Undef) | NoFuel => (l, NoFuel) end
  | Clear => (l, Throw ENotModelled)
  end.
(** ContentInstructionCollection_GetSize, _At, _Append, _Insert, _Remove and _Clear, c_content_instruction.cpp:47-117;
    BaseInstructionCollection, content_stream_instruction_base.h:68-82 and 114-116 *)
Definition instruction_collection (l : list V) (c : call V) : list V * res (told V) :=
  match c with
  | Size => (l, Ok (Count (arr_size l)))
  | At i => (l, do v <- arr_get l i;; Ok (Value v))
  | Append v => (l ++ [v], Ok Done)
  | Insert i v => match insert_at l i v with Ok l' => (l', Ok Done) | Throw e => (l, Throw e) | Undef => (l, Undef) | NoFuel => (l, NoFuel) end
  | Remove i => match erase_at l i with Ok l' => (l', Ok Done) | Throw e => (l, Throw e) | Undef => (l, Undef) | NoFuel => (l, NoFuel) end
  | Clear => ([], Ok Done)
  end.
(** ArrayObject_GetSize, _GetValue, _Append, _Insert, _Remove and _Clear, c_array_object.cpp:22-130, on Model/Containers.v *)
Definition array_object (l : list V) (c : call V) : list V * res (told V) :=
  match c with
  | Size => (l, Ok (Count (arr_size l)))
  | At i => (l, do v <- arr_get l i;; Ok (Value v))
  | Append v => (arr_append l v, Ok Done)
  | Insert i v => match arr_insert l i v with Ok l' => (l', Ok Done) | Throw e => (l, Throw e) | Undef => (l, Undef) | NoFuel => (l, NoFuel) end
  | Remove i => let '(l', removed) := arr_remove l i in (l', if removed then Ok Done else Throw EObjectMissing)
  | Clear => (arr_clear l, Ok Done)
  end.

(** a program calls one after another; nothing is known after undefined behaviour *)
Fixpoint calls (step : list V -> call V -> list V * res (told V)) (l : list V) (cs : list (call V)) : list V * list (res (told V)) :=
  match cs with
  | [] => (l, [])
  | c :: t =>
      match step l c with
      | (l', Undef) => (l', [Undef])
      | (l', r) => let '(l'', rs) := calls step l' t in (l'', r :: rs)
      end
  end.
End Calls.

(** *** Collections that can only be read *)
(** TextObject::GetOperationAt, content_stream_objects.h:36-37; OperationGeneric::GetOperandAt, content_stream_operation_generic.cpp:26-28 *)
Definition vector_at {V : Type} (l : list V) (i : N) : res V := arr_get l i.
(** PageAnnotations::At, annotations.cpp:51-56, and FieldCollection::At, fields.cpp:63-68: the element as a dictionary, and [create] of it *)
Definition element_at {V : Type} (create : list (bytes * obj) -> res V) (l : list obj) (i : N) : res V :=
  do o <- arr_get l i;;
  match o with
  | ODict d => create d
  | ORef _ _ => Throw ENotModelled
  | _ => Throw EConversion
  end.

(** ByteRangeCollection, digital_signature.cpp:12-39, of an array of integers; at + 1 wraps *)
Definition byte_ranges (l : list Z) : res (list Z) := if Nat.odd (length l) then Throw EGeneral else Ok l.
Definition byte_range_count (l : list Z) : N := N.of_nat (length l) / 2.
Definition byte_range (l : list Z) (i : N) : res (Z * Z) :=
  do a <- arr_get l i;;
  do b <- arr_get l ((i + 1) mod 2 ^ 64);;
  Ok (a, b).

(** The boundary of the C interface: what the body of a public function does with the pointers it is given, and a program that
    calls the functions with the handles it owns (implementation/c_helper.h and the files under implementation/).

    A handle is a pointer to an object of the library, stored as an opaque type.  The functions turn it back into a pointer to a
    class with reinterpret_cast, which is right only if that is the class of the pointer that was stored: a class of the library
    has several bases, one of them virtual (IUnknown, unknown_interface.h), so that the pointers to its bases are different
    pointers.

    Simplifications: one [Work] stands for everything a body does between try and the store of its result; it may go on, return
    an error code or throw.  The bodies without try are taken not to throw.  Pointers other than handles are either null or
    valid.  What the library keeps (references of its own to an object) may change between any two calls. *)
From Coq Require Import List String Arith NArith.
Import ListNotations.
Local Open Scope string_scope.
Local Open Scope list_scope.

(** the parameters of a public function: a handle "H*", a place for a new handle "H**", any other pointer, a value *)
Inductive param : Type :=
| PHandle (h : string)
| PResult (h : string)
| PPointer (t : string)
| PValue (t : string).

(** the steps of a body, with the position of the parameter they are about *)
Inductive op : Type :=
(** RETURN_ERROR_PARAM_VALUE_IF_NULL, c_helper.h:12-13 *)
| Check (p : nat)
(** the parameter, after reinterpret_cast to the class, is followed *)
| Use (p : nat) (c : string)
(** a plain pointer is followed; [TouchSome]: only if it is not null (c_file.cpp:213, c_pkcs12_key.cpp:19,37) *)
| Touch (p : nat)
| TouchSome (p : nat)
(** the parameter, after reinterpret_cast to the first class, is converted with static_cast to its base (c_filter.cpp:87-319) *)
| Upcast (p : nat) (c1 c2 : string)
(** the block between try and CATCH_VANILLAPDF_EXCEPTIONS, c_helper.h:15-37 *)
| Work
(** "ptr = value.AddRefGet(); *result = reinterpret_cast<H*>(ptr)", where ptr points to class c *)
| Give (p : nat) (h c : string)
(** SafeObjectConvert, c_helper.h:39-79: parameter p as class c1, dynamic_cast to c2, AddRef, stored through q as handle h *)
| Convert (p : nat) (c1 : string) (q : nat) (h c2 : string)
(** ObjectRelease, c_helper.h:81-92 *)
| Drop (p : nat) (c : string)
(** IUnknown_AddRef, c_unknown_interface.cpp:9-16 *)
| Share (p : nat) (c : string).

Record fn : Type := Fn { f_name : string; f_params : list param; f_body : list op }.

(** the error codes, c_values.cpp *)
Definition SUCCESS : N := 0%N.
Definition PARAMETER_VALUE : N := 1%N.

(** ** Objects *)
(** an object: its class, the references taken for handles, and those of the library itself.  IUnknown::AddRef and Release,
    unknown_interface.cpp:36-44: the counter is the sum; at zero the object is gone. *)
Record object : Type := { o_class : string; o_held : nat; o_lib : nat }.
Definition heap : Type := list (option object).
Definition at_ (hp : heap) (a : nat) : option object := match nth_error hp a with Some o => o | None => None end.
Fixpoint set (hp : heap) (a : nat) (o : option object) : heap :=
  match hp, a with
  | [], _ => []
  | _ :: r, O => o :: r
  | x :: r, S n => x :: set r n o
  end.
Definition settle (o : object) : option object := if (o_held o + o_lib o =? 0)%nat then None else Some o.
Definition hold (hp : heap) (a : nat) : heap :=
  match at_ hp a with
  | Some o => set hp a (Some {| o_class := o_class o; o_held := S (o_held o); o_lib := o_lib o |})
  | None => hp
  end.
Definition release (hp : heap) (a : nat) : heap :=
  match at_ hp a with
  | Some o => set hp a (settle {| o_class := o_class o; o_held := pred (o_held o); o_lib := o_lib o |})
  | None => hp
  end.
Definition library (hp : heap) (a n : nat) : heap :=
  match at_ hp a with
  | Some o => set hp a (settle {| o_class := o_class o; o_held := o_held o; o_lib := n |})
  | None => hp
  end.

(** "class d is class c or one of its descendants", by the declared bases; what dynamic_cast decides *)
Section Classes.
Variable bases : list (string * list string).
Fixpoint parents (l : list (string * list string)) (d : string) : list string :=
  match l with
  | [] => []
  | (x, bs) :: r => if x =? d then bs else parents r d
  end.
Fixpoint is_a (fuel : nat) (d c : string) : bool :=
  (d =? c) || match fuel with O => false | S n => existsb (fun b => is_a n b c) (parents bases d) end.
(** no chain of bases in the library is longer than ten *)
Definition derives (d c : string) : bool := is_a 10 d c.

(** ** Calls *)
(** what a parameter is at run time: null, a pointer to class [v] of the object at [a], or any other valid pointer *)
Inductive arg : Type := Null | Ptr (a : nat) (v : string) | Place.
(** the part of a call that the model leaves open: how the block ends, and which object is handed out: one that exists or a new
    one of some class *)
Inductive work : Type := Goes | Stops (code : N) | Throws (code : N).
Record choice : Type := { ch_work : work; ch_object : option nat; ch_class : string }.

Inductive wrong : Type :=
(** a null pointer is followed *)
| NullAccess (p : nat)
(** a pointer to one class is used as a pointer to another: the class of the object and the class it is taken for *)
| Mistaken (d c : string)
(** a pointer to an object that is gone is followed *)
| Gone (p : nat).
Inductive outcome : Type :=
| Returned (code : N) (hp : heap) (given : option (string * nat * string)) (gone : option nat)
| Fails (w : wrong).

Fixpoint set_arg (l : list arg) (p : nat) (x : arg) : list arg :=
  match l, p with
  | [], _ => []
  | _ :: r, O => x :: r
  | y :: r, S n => y :: set_arg r n x
  end.

(** the body of a public function.  A null check returns VANILLAPDF_ERROR_PARAMETER_VALUE; the handlers return the code of the
    exception; the end of the body returns VANILLAPDF_ERROR_SUCCESS. *)
Fixpoint exec (body : list op) (args : list arg) (ch : choice) (hp : heap)
  (given : option (string * nat * string)) (gone : option nat) : outcome :=
  match body with
  | [] => Returned SUCCESS hp given gone
  | Check p :: r =>
      match nth p args Place with
      | Null => Returned PARAMETER_VALUE hp given gone
      | _ => exec r args ch hp given gone
      end
  | Use p c :: r =>
      match nth p args Place with
      | Null => Fails (NullAccess p)
      | Ptr a v =>
          match at_ hp a with
          | None => Fails (Gone p)
          | Some o => if v =? c then exec r args ch hp given gone else Fails (Mistaken (o_class o) c)
          end
      | Place => exec r args ch hp given gone
      end
  | Touch p :: r =>
      match nth p args Place with
      | Null => Fails (NullAccess p)
      | _ => exec r args ch hp given gone
      end
  | TouchSome p :: r => exec r args ch hp given gone
  | Upcast p c1 c2 :: r =>
      match nth p args Place with
      | Ptr a v =>
          match at_ hp a with
          | None => Fails (Gone p)
          | Some o =>
              if v =? c1 then exec r (set_arg args p (Ptr a c2)) ch hp given gone else Fails (Mistaken (o_class o) c1)
          end
      | _ => exec r args ch hp given gone
      end
  | Work :: r =>
      match ch_work ch with
      | Goes => exec r args ch hp given gone
      | Stops code => Returned code hp given gone
      | Throws code => Returned code hp given gone
      end
  | Give p h c :: r =>
      match nth p args Place with
      | Null => Fails (NullAccess p)
      | _ =>
          let fresh :=
            exec r args ch
              (hp ++ [Some {| o_class := if derives (ch_class ch) c then ch_class ch else c; o_held := 1; o_lib := 0 |}])
              (Some (h, List.length hp, c)) gone in
          match ch_object ch with
          | Some a =>
              match at_ hp a with
              | Some o => if derives (o_class o) c then exec r args ch (hold hp a) (Some (h, a, c)) gone else fresh
              | None => fresh
              end
          | None => fresh
          end
      end
  | Convert p c1 q h c2 :: r =>
      match nth p args Place with
      | Null => Fails (NullAccess p)
      | Ptr a v =>
          match at_ hp a with
          | None => Fails (Gone p)
          | Some o =>
              if v =? c1 then
                if derives (o_class o) c2 then
                  match nth q args Place with
                  | Null => Fails (NullAccess q)
                  | _ => exec r args ch (hold hp a) (Some (h, a, c2)) gone
                  end
                else Returned PARAMETER_VALUE hp given gone
              else Fails (Mistaken (o_class o) c1)
          end
      | Place => exec r args ch hp given gone
      end
  | Drop p c :: r =>
      match nth p args Place with
      | Null => Fails (NullAccess p)
      | Ptr a v =>
          match at_ hp a with
          | None => Fails (Gone p)
          | Some o => if v =? c then exec r args ch (release hp a) given (Some p) else Fails (Mistaken (o_class o) c)
          end
      | Place => exec r args ch hp given gone
      end
  | Share p c :: r =>
      match nth p args Place with
      | Null => Fails (NullAccess p)
      | Ptr a v =>
          match at_ hp a with
          | None => Fails (Gone p)
          | Some o => if v =? c then exec r args ch (hold hp a) (Some ("IUnknownHandle", a, v)) gone
                      else Fails (Mistaken (o_class o) c)
          end
      | Place => exec r args ch hp given gone
      end
  end.

(** ** A program that uses the interface *)
(** it owns handles: the declared type, the object, and the class of the pointer inside.  [Library a n]: the library's own
    references to the object become [n]. *)
Record client : Type := { c_heap : heap; c_owned : list (string * nat * string) }.
Definition start : client := {| c_heap := []; c_owned := [] |}.
Inductive carg : Type := ANull | AHandle (k : nat) | APlace.
Inductive event : Type := Call (f : fn) (args : list carg) (ch : choice) | Library (a n : nat).

(** a program passes a handle only where its declared type is asked for; null anywhere *)
Definition typed1 (owned : list (string * nat * string)) (p : param) (x : carg) : bool :=
  match x, p with
  | ANull, _ => true
  | AHandle k, PHandle h => match nth_error owned k with Some (h', _, _) => h' =? h | None => false end
  | AHandle _, _ => false
  | APlace, PHandle _ => false
  | APlace, _ => true
  end.
Fixpoint typed (owned : list (string * nat * string)) (ps : list param) (xs : list carg) : bool :=
  match ps, xs with
  | [], [] => true
  | p :: ps', x :: xs' => typed1 owned p x && typed owned ps' xs'
  | _, _ => false
  end.
Definition pass (owned : list (string * nat * string)) (x : carg) : arg :=
  match x with
  | ANull => Null
  | AHandle k => match nth_error owned k with Some (_, a, v) => Ptr a v | None => Place end
  | APlace => Place
  end.
Fixpoint remove_at {A : Type} (l : list A) (k : nat) : list A :=
  match l, k with
  | [], _ => []
  | _ :: r, O => r
  | x :: r, S n => x :: remove_at r n
  end.

Inductive reply : Type := Answer (code : N) (c : client) | Refused | Broken (w : wrong).
Definition call (f : fn) (args : list carg) (ch : choice) (c : client) : reply :=
  if typed (c_owned c) (f_params f) args then
    match exec (f_body f) (map (pass (c_owned c)) args) ch (c_heap c) None None with
    | Fails w => Broken w
    | Returned code hp given gone =>
        let left := match gone with
                    | Some p => match nth p args ANull with AHandle k => remove_at (c_owned c) k | _ => c_owned c end
                    | None => c_owned c
                    end in
        Answer code {| c_heap := hp; c_owned := left ++ match given with Some g => [g] | None => [] end |}
    end
  else Refused.

(** a history of calls; a call that the declared types forbid ends it *)
Fixpoint play (es : list event) (c : client) : reply :=
  match es with
  | [] => Answer SUCCESS c
  | Call f args ch :: r => match call f args ch c with Answer _ c' => play r c' | x => x end
  | Library a n :: r => play r {| c_heap := library (c_heap c) a n; c_owned := c_owned c |}
  end.
End Classes.

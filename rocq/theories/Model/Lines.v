(** Lines of the input: utils/streams/input_stream.cpp:102-142, and std::string::find. *)
From Coq Require Import List NArith ZArith Bool String.
From Verif.Model Require Import Base.
Import ListNotations.
Local Open Scope N_scope.

(** InputStream::Readline, input_stream.cpp:102-142: the line, the rest, and whether the end of the input was seen *)
Fixpoint readline (s : bytes) : bytes * bytes * bool :=
  match s with
  | [] => ([], [], true)
  | c :: t =>
      if c =? 13 then
        match t with
        | 10 :: t' => ([], t', false)
        | [] => ([], [], true)                 (* peek at the end sets eof *)
        | _ => ([], t, false)
        end
      else if c =? 10 then ([], t, false)
      else let '(l, r, e) := readline t in (c :: l, r, e)
  end.

(** std::string::find: position of the first occurrence of [w] *)
Fixpoint is_prefix (w s : bytes) : bool :=
  match w, s with
  | [], _ => true
  | x :: w', y :: s' => (x =? y) && is_prefix w' s'
  | _, [] => false
  end.
Fixpoint find_sub (w s : bytes) : option nat :=
  if is_prefix w s then Some O
  else match s with
       | [] => None
       | _ :: t => match find_sub w t with Some n => Some (S n) | None => None end
       end.

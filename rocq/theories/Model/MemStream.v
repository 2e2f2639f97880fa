(** Memory streams of the C interface: utils/streams/input_stream.cpp, output_stream.cpp, input_output_stream.h, stream_utils.cpp:47-75,
    implementation/utils/c_input_stream.cpp and c_input_output_stream.cpp, and Buffer::ToInputStream (utils/buffer.cpp:39-43).

    The stream below is a std::stringstream (the C++ standard, [istream], [ostream], [stringbuf]): bytes, a position for reading, a position
    for writing, and the flags eofbit and failbit, which reading and writing share because an InputOutputStream gives the same object
    to both of its halves (input_output_stream.h:32-34).  [strict] is what the standard leaves open: whether preparing an output
    operation sets failbit when only eofbit is set.  Simplifications: memory does not run out; one thread. *)
From Coq Require Import List NArith ZArith Bool.
From Verif.Model Require Import Base Errors.
Import ListNotations.
Local Open Scope N_scope.

Record stream : Type := { m_data : bytes; m_get : nat; m_put : nat; m_eof : bool; m_fail : bool }.
(** StreamUtils::InputOutputStreamFromMemory, stream_utils.cpp:51-54 *)
Definition empty_stream : stream := {| m_data := []; m_get := 0; m_put := 0; m_eof := false; m_fail := false |}.

Definition good (s : stream) : bool := negb (m_eof s) && negb (m_fail s).
Definition with_state (eof fail : bool) (s : stream) : stream := {| m_data := m_data s; m_get := m_get s; m_put := m_put s; m_eof := eof; m_fail := fail |}.

(** std::istream::read: a stream that is not good fails and gives nothing; too few bytes set eofbit and failbit *)
Definition raw_read (n : nat) (s : stream) : bytes * stream :=
  if good s then
    let b := firstn n (skipn (m_get s) (m_data s)) in
    let s' := {| m_data := m_data s; m_get := m_get s + List.length b; m_put := m_put s; m_eof := m_eof s; m_fail := m_fail s |} in
    (b, if Nat.ltb (List.length b) n then with_state true true s' else s')
  else ([], with_state (m_eof s) true s).
(** overwriting and extending, std::stringbuf::sputn *)
Definition put_bytes (p : nat) (b data : bytes) : bytes := firstn p data ++ b ++ skipn (p + List.length b) data.
Definition raw_write (strict : bool) (b : bytes) (s : stream) : stream :=
  if good s then {| m_data := put_bytes (m_put s) b (m_data s); m_get := m_get s; m_put := m_put s + List.length b; m_eof := m_eof s; m_fail := m_fail s |}
  else with_state (m_eof s) (m_fail s || strict) s.

(** Buffer::ToInputStream, buffer.cpp:39-43 *)
Definition stream_of (strict : bool) (b : bytes) : stream := raw_write strict b empty_stream.

(** the position [z] lies in the data *)
Definition inside (z : Z) (s : stream) : bool := (0 <=? z)%Z && (z <=? Z.of_nat (List.length (m_data s)))%Z.

(** InputStream::GetInputPosition, input_stream.cpp:55-63 *)
Definition input_position (s : stream) : Z := if m_eof s then -1 else if m_fail s then -1 else Z.of_nat (m_get s).
(** InputStream::SetInputPosition, input_stream.cpp:65-100, from the beginning: std::istream::seekg sets failbit for a position that is
    not in the data, and line 83 keeps it *)
Definition set_input_position (z : Z) (s : stream) : stream :=
  if (z =? -1)%Z then with_state true (m_fail s) s
  else if inside z s then {| m_data := m_data s; m_get := Z.to_nat z; m_put := m_put s; m_eof := false; m_fail := false |}
  else with_state false true s.
(** OutputStream::GetOutputPosition, output_stream.cpp:69-71 *)
Definition output_position (s : stream) : Z := if m_fail s then -1 else Z.of_nat (m_put s).
(** OutputStream::SetOutputPosition, output_stream.cpp:73-75 *)
Definition set_output_position (z : Z) (s : stream) : stream :=
  if m_fail s then s
  else if inside z s then {| m_data := m_data s; m_get := m_get s; m_put := Z.to_nat z; m_eof := m_eof s; m_fail := m_fail s |}
  else with_state (m_eof s) true s.

(** constant::BUFFER_SIZE *)
Definition piece : nat := N.to_nat 4096.
(** StreamUtils::InputStreamToBuffer, stream_utils.cpp:60-75: pieces of 4096 bytes until nothing comes *)
Fixpoint to_buffer (fuel : nat) (acc : bytes) (s : stream) : res (bytes * stream) :=
  match fuel with
  | O => NoFuel
  | S fuel' =>
      let (b, s') := raw_read piece s in
      match b with
      | [] => Ok (acc, s')
      | _ => to_buffer fuel' (acc ++ b) s'
      end
  end.

Inductive op : Type :=
| Read (n : Z)            (* InputOutputStream_Read, ReadBuffer *)
| GetInputPosition | SetInputPosition (z : Z)
| GetOutputPosition | SetOutputPosition (z : Z)
| WriteString (s : bytes) (* the bytes behind the const char*, with their terminator somewhere *)
| WriteBuffer (b : bytes)
| Flush
| ToBuffer.
Inductive answer : Type := ABytes (b : bytes) | APosition (z : Z) | ADone.

(** One call, c_input_output_stream.cpp:35-156.  A negative length is not allowed for reading to memory of the caller. *)
Definition apply (strict : bool) (o : op) (s : stream) : res (answer * stream) :=
  match o with
  | Read n => if (n <? 0)%Z then Undef else let (b, s') := raw_read (Z.to_nat n) s in Ok (ABytes b, s')
  | GetInputPosition => Ok (APosition (input_position s), s)
  | SetInputPosition z => Ok (ADone, set_input_position z s)
  | GetOutputPosition => Ok (APosition (output_position s), s)
  | SetOutputPosition z => Ok (ADone, set_output_position z s)
  | WriteString b => Ok (ADone, raw_write strict (c_string b) s)
  | WriteBuffer b => Ok (ADone, raw_write strict b s)
  | Flush => Ok (ADone, s)
  | ToBuffer => do '(b, s') <- to_buffer (S (S (List.length (m_data s)))) [] s;; Ok (ABytes b, s')
  end.
Fixpoint apply_all (strict : bool) (l : list op) (s : stream) : res (list answer * stream) :=
  match l with
  | [] => Ok ([], s)
  | o :: l' => do '(a, s1) <- apply strict o s;; do '(r, s2) <- apply_all strict l' s1;; Ok (a :: r, s2)
  end.

(** A memory stream: bytes with a position for reading and one for writing. *)
From Coq Require Import List NArith ZArith Bool.
From Verif.Model Require Import Base Errors MemStream.
Import ListNotations.
Local Open Scope N_scope.

Record memory : Type := { bytes_of : bytes; read_at : nat; write_at : nat }.
Definition nothing : memory := {| bytes_of := []; read_at := 0; write_at := 0 |}.

(** the call does not ask for more than there is *)
Definition within (o : op) (m : memory) : Prop :=
  match o with
  | Read n => (0 <= n <= Z.of_nat (List.length (bytes_of m) - read_at m))%Z
  | SetInputPosition z | SetOutputPosition z => (0 <= z <= Z.of_nat (List.length (bytes_of m)))%Z
  | ToBuffer => False
  | _ => True
  end.
(** writing [b] replaces what is at the position and appends the rest *)
Definition written (p : nat) (b : bytes) (old new : bytes) : Prop :=
  (List.length new = Nat.max (List.length old) (p + List.length b))%nat /\
  forall i, nth_error new i = if (Nat.leb p i && Nat.ltb i (p + List.length b))%bool then nth_error b (i - p) else nth_error old i.
(** what a call does *)
Definition step (o : op) (m : memory) (a : answer) (m' : memory) : Prop :=
  match o with
  | Read n => exists b, a = ABytes b /\ Z.of_nat (List.length b) = n /\ (forall i, (i < List.length b)%nat -> nth_error b i = nth_error (bytes_of m) (read_at m + i)) /\
                m' = {| bytes_of := bytes_of m; read_at := read_at m + List.length b; write_at := write_at m |}
  | GetInputPosition => a = APosition (Z.of_nat (read_at m)) /\ m' = m
  | SetInputPosition z => a = ADone /\ m' = {| bytes_of := bytes_of m; read_at := Z.to_nat z; write_at := write_at m |}
  | GetOutputPosition => a = APosition (Z.of_nat (write_at m)) /\ m' = m
  | SetOutputPosition z => a = ADone /\ m' = {| bytes_of := bytes_of m; read_at := read_at m; write_at := Z.to_nat z |}
  | WriteString b => a = ADone /\ exists text new, (b = text \/ exists rest, b = text ++ 0 :: rest) /\ ~ In 0 text /\ written (write_at m) text (bytes_of m) new /\
                m' = {| bytes_of := new; read_at := read_at m; write_at := write_at m + List.length text |}
  | WriteBuffer b => a = ADone /\ exists new, written (write_at m) b (bytes_of m) new /\
                m' = {| bytes_of := new; read_at := read_at m; write_at := write_at m + List.length b |}
  | Flush => a = ADone /\ m' = m
  | ToBuffer => False
  end.
(** a history in which no call asks for more than there is *)
Inductive run : list op -> memory -> list answer -> memory -> Prop :=
| r_end : forall m, run [] m [] m
| r_call : forall o l m a m1 r m2, within o m -> step o m a m1 -> run l m1 r m2 -> run (o :: l) m (a :: r) m2.
(** the history can be continued by a call of [l] as long as it stays within what there is *)
Inductive stays_within : list op -> memory -> Prop :=
| sw_end : forall m, stays_within [] m
| sw_call : forall o l m, within o m -> (forall a m', step o m a m' -> stays_within l m') -> stays_within (o :: l) m.

(** a call that starts over at a position in the data of [s] *)
Definition starts_over (o : op) (s : stream) : Prop := exists z, o = SetInputPosition z /\ (0 <= z <= Z.of_nat (List.length (m_data s)))%Z.
Definition contents (s : stream) : bytes := m_data s.
(** the memory a stream stands for *)
Definition memory_of (s : stream) : memory := {| bytes_of := m_data s; read_at := m_get s; write_at := m_put s |}.
(** lengths are not negative *)
Definition no_negative_read (o : op) : Prop := match o with Read n => (0 <= n)%Z | _ => True end.
(** the answer of a stream that has nothing to give *)
Definition gives_nothing (o : op) (a : answer) : Prop :=
  match o with Read _ | ToBuffer => a = ABytes [] | GetInputPosition | GetOutputPosition => a = APosition (-1) | _ => a = ADone end.

(** The chain of cross-reference sections of a file: syntax/files/xref_chain.cpp, xref.cpp:356-372, and the parts of
    syntax/files/file.cpp that read, search and extend it. *)
From Coq Require Import List NArith ZArith Bool String.
From Verif.Model Require Import Base Char Numbers SMap Object Token Lines Parser Arith Xref StartXref Header FileWrite.
Import ListNotations.
Local Open Scope N_scope.

(** XrefBase::Type, xref.h:50-55 *)
Inductive skind : Set := STable | SStream | SVirtual.

(** A section, xref.h: its entries in the order of their numbers, the entries of the hybrid stream of a table (SetHybridStream,
    xref.cpp:399-401), and its trailer dictionary (of a stream: the dictionary of the stream). *)
Record section : Type := {
  s_kind : skind;
  s_entries : list xentry;
  s_hybrid : option (list xentry);
  s_trailer : list (bytes * obj)
}.
Definition chain := list section.

(** XrefBase::Find, xref.cpp:296-306 (the entry with that number, if any) *)
Definition xfind (n : N) (l : list xentry) : option xentry := find (fun e => xnum e =? n) l.

(** Find and Contains of a section: XrefTable consults the hybrid stream for numbers the table does not have, xref.cpp:356-372 *)
Definition sec_find (n : N) (s : section) : option xentry :=
  match xfind n (s_entries s) with
  | Some e => Some e
  | None =>
      match s_kind s, s_hybrid s with
      | STable, Some h => xfind n h
      | _, _ => None
      end
  end.
Definition sec_contains (n : N) (s : section) : bool := match sec_find n s with Some _ => true | None => false end.

(** XrefChain::GetXrefEntry, xref_chain.cpp:10-29, and Contains, 31-49: sections that do not have the number, or have it with another
    generation, are passed over *)
Fixpoint chain_entry (n g : N) (c : chain) : option xentry :=
  match c with
  | [] => None
  | s :: t =>
      match sec_find n s with
      | Some e => if xgen e =? g then Some e else chain_entry n g t
      | None => chain_entry n g t
      end
  end.

(** File::GetIndirectObjectInternal, file.cpp:804-901: where the object is found; [None] is the null object.  Simplification: an
    entry whose object turns out to have another number (826-873) is not modelled. *)
Definition resolve_entry (n g : N) (c : chain) : option xentry :=
  match chain_entry n g c with
  | Some e => match xdata e with KFree _ => None | _ => Some e end
  | None => None
  end.

(** ** Changing the chain *)

(** XrefBase::Remove, xref.cpp:273-290, by number *)
Definition xremove (n : N) (l : list xentry) : list xentry := filter (fun e => negb (xnum e =? n)) l.

Definition with_entries (s : section) (l : list xentry) : section :=
  {| s_kind := s_kind s; s_entries := l; s_hybrid := s_hybrid s; s_trailer := s_trailer s |}.

(** XrefChain::ReleaseEntry, xref_chain.cpp:51-82, for an entry with number [n] and generation [g]: a free entry of generation 0 takes
    its place.  An entry that is only in the hybrid stream is not removed (the assert at line 66 is compiled out). *)
Fixpoint release_entry (n g : N) (c : chain) : chain * bool :=
  match c with
  | [] => ([], false)
  | s :: t =>
      let next := let '(t', b) := release_entry n g t in (s :: t', b) in
      match sec_find n s with
      | Some e =>
          if xgen e =? g then
            match xfind n (s_entries s) with
            | Some _ => (with_entries s (xadd {| xnum := n; xgen := 0; xdata := KFree 0 |} (s_entries s)) :: t, true)
            | None => (c, false)
            end
          else next
      | None => next
      end
  end.

(** File::AllocateNewEntry, file.cpp:938-1001: the loop over the numbers from [i] on.  A number counts as free only when no section
    contains it; the new entry goes to the first section.  With no section at all the list iterator at the end is dereferenced. *)
Definition max_u64 : N := 18446744073709551615.
Definition new_entry (i : N) : xentry := {| xnum := i; xgen := 0; xdata := KUsed (-1) true |}.
Fixpoint allocate_from (fuel : nat) (i : N) (c : chain) : res (N * chain) :=
  if max_u64 <=? i then Throw EGeneral
  else
    match fuel with
    | O => NoFuel
    | S f =>
        if existsb (sec_contains i) c then allocate_from f (i + 1) c
        else
          match c with
          | [] => Undef
          | s :: t => Ok (i, with_entries s (xadd (new_entry i) (s_entries s)) :: t)
          end
    end.

(** number of entries of all sections: bounds the search *)
Definition sec_size (s : section) : nat :=
  (List.length (s_entries s) + match s_hybrid s with Some h => List.length h | None => 0 end)%nat.
Definition chain_size (c : chain) : nat := fold_right (fun s n => (sec_size s + n)%nat) O c.

(** The allocation state of a File: m_next_allocation (file.h:150) and the chain.  [None] is the deferred pointer of a new file on
    which nothing was done yet (file.cpp:933-936 tests that pointer, not the list). *)
Record alloc_state : Type := { a_next : N; a_chain : option chain }.
Definition empty_table : section := {| s_kind := STable; s_entries := []; s_hybrid := None; s_trailer := [] |}.
Definition allocate (st : alloc_state) : res (N * alloc_state) :=
  let c := match a_chain st with Some c => c | None => [empty_table] end in
  do '(i, c') <- allocate_from (S (chain_size c)) (a_next st) c;;
  Ok (i, {| a_next := i + 1; a_chain := Some c' |}).

(** ** Reading the chain *)

Section Reader.
Variable d : dictionary.
(** StreamObject::GetBody of a cross-reference stream: the data decoded with its filters *)
Variable decode : list (bytes * obj) -> bytes -> res bytes.

(** InputStream::SetInputPosition, input_stream.cpp:61-96, from the beginning: a negative position leaves the stream failed or at its
    end, one behind the end reads nothing *)
Definition at_position (file : bytes) (z : Z) : bytes :=
  if (z <? 0)%Z || (Z.of_nat (List.length file) <=? z)%Z then [] else skipn (Z.to_nat z) file.

(** While a file is being opened indirect objects are not available (file.cpp:797-800) *)
Definition opening_length (n g : N) : res Z := Throw ENotInitialized.

(** ObjectUtils::ConvertTo<IntegerObjectPtr>, object_utils.h:76-98, while the file is being opened; a real number is not modelled *)
Definition int_value (o : obj) : res Z :=
  match o with
  | OInt z => Ok z
  | ORef _ _ => Throw ENotInitialized
  | OReal _ _ _ => Throw ENotModelled
  | _ => Throw EConversion
  end.
Fixpoint int_values (l : list obj) : res (list Z) :=
  match l with
  | [] => Ok []
  | o :: t => do z <- int_value o;; do r <- int_values t;; Ok (z :: r)
  end.
(** dictionary FindAs of an integer and of an array of integers *)
Definition find_int (k : bytes) (m : list (bytes * obj)) : res Z :=
  match sm_find k m with Some o => int_value o | None => Throw EGeneral end.
Definition find_ints (k : bytes) (m : list (bytes * obj)) : res (list Z) :=
  match sm_find k m with
  | Some (OArr l) => int_values l
  | Some (ORef _ _) => Throw ENotInitialized
  | Some _ => Throw EConversion
  | None => Throw EGeneral
  end.

(** whether the entries name the stream itself as in use, parser.cpp:632-636 *)
Definition names_self (n g : N) (l : list xentry) : bool :=
  existsb (fun e => match xdata e with KUsed _ _ => (xnum e =? n) && (xgen e =? g) | _ => false end) l.

(** Parser::ParseXrefStream, parser.cpp:547-704: the section and the chain, to which a virtual table is appended when neither the
    stream nor the chain has an entry for the stream.  Simplification: a self entry that a later entry with the same number replaces
    does not count as found. *)
Definition parse_stream_section (c : chain) (n g : N) (m : list (bytes * obj)) (data : bytes) : res (chain * section) :=
  do w <- find_ints (str "W") m;;
  do size <- find_int (str "Size") m;;
  do index <- (if sm_contains (str "Index") m then do l <- find_ints (str "Index") m;; Ok (Some l) else Ok None);;
  do body <- decode m data;;
  do entries <- parse_xref_stream w index size body;;
  let sec := {| s_kind := SStream; s_entries := entries; s_hybrid := None; s_trailer := m |} in
  if names_self n g entries then Ok (c, sec)
  else
    let c' := match chain_entry n g c with
              | Some _ => c
              | None => c ++ [{| s_kind := SVirtual; s_entries := [{| xnum := n; xgen := g; xdata := KUsed (-1) true |}];
                                 s_hybrid := None; s_trailer := [] |}]
              end in
    match chain_entry n g c' with
    | Some e => match xdata e with KUsed _ _ => Ok (c', sec) | _ => Throw EGeneral end
    | None => Throw EObjectMissing
    end.

(** Parser::ReadXref, parser.cpp:715-729 with ReadXrefStream, 706-713 *)
Definition read_section (file : bytes) (c : chain) (offset : Z) : res (chain * section) :=
  let s := at_position file offset in
  do ty <- peek_type_skip d s;;
  if ttype_eqb ty TyXref then
    do '(t, o, _) <- read_xref_table d opening_length s;;
    match o with
    | ODict m => Ok (c, {| s_kind := STable; s_entries := t; s_hybrid := None; s_trailer := m |})
    | _ => Throw EConversion
    end
  else
    do '(n, g, o, _) <- read_indirect_object d opening_length s;;
    match o with
    | OStream m data => parse_stream_section c n g m data
    | ORef _ _ => Throw ENotInitialized
    | _ => Throw EConversion
    end.

(** File::ReadXref, file.cpp:707-720: the loop over the sections *)
Fixpoint read_sections (fuel : nat) (file : bytes) (c : chain) (offset : Z) : res chain :=
  match fuel with
  | O => NoFuel
  | S f =>
      do '(c1, sec) <- read_section file c offset;;
      let c2 := c1 ++ [sec] in
      if sm_contains (str "Prev") (s_trailer sec) then
        do prev <- find_int (str "Prev") (s_trailer sec);;
        read_sections f file c2 prev
      else Ok c2
  end.

(** the pass over the tables for hybrid streams, file.cpp:726-746.  Simplification: virtual tables that reading a hybrid stream appends
    while the list is iterated come after the sections and are not visited (they have no trailer entries). *)
Fixpoint read_hybrids (file : bytes) (done rest : chain) : res chain :=
  match rest with
  | [] => Ok done
  | s :: t =>
      match s_kind s with
      | STable =>
          if sm_contains (str "XRefStm") (s_trailer s) then
            do off <- find_int (str "XRefStm") (s_trailer s);;
            do '(c1, h) <- read_section file (done ++ s :: t) off;;
            match s_kind h with
            | SStream =>
                do r <- read_hybrids file (done ++ [{| s_kind := STable; s_entries := s_entries s; s_hybrid := Some (s_entries h);
                                                      s_trailer := s_trailer s |}]) t;;
                Ok (r ++ skipn (List.length done + S (List.length t)) c1)
            | _ => Throw EGeneral
            end
          else read_hybrids file (done ++ [s]) t
      | _ => read_hybrids file (done ++ [s]) t
      end
  end.

(** file.cpp:748-757: a virtual table in front goes to the end *)
Definition move_virtual (c : chain) : chain :=
  match c with
  | s :: t => match s_kind s with SVirtual => t ++ [s] | _ => c end
  | [] => []
  end.

(** File::ReadXref, file.cpp:698-758 *)
Definition read_chain (fuel : nat) (file : bytes) (offset : Z) : res chain :=
  do c <- read_sections fuel file [] offset;;
  do c2 <- read_hybrids file [] c;;
  Ok (move_virtual c2).
End Reader.

(** The contents of a page: semantics/objects/page_contents.cpp and the instruction list of contents/content_stream_instruction_base.h,
    as used by implementation/semantics/c_page_contents.cpp and implementation/contents/c_content_instruction.cpp. *)
From Coq Require Import List NArith ZArith Bool.
From Verif.Model Require Import Base Object Content.
Import ListNotations.
Local Open Scope N_scope.

(** PageContents, page_contents.h:11-30: the stream, or the array of streams, it was made from with their decoded bodies, the dirty mark of that
    object (object.h:54-55), and m_instructions with its mark IsInitialized.  Simplification: every element of an array is a reference to a
    stream, and bodies are what GetBody and SetBody exchange (C32). *)
Record contents : Type := mkContents {
  in_array : bool;
  bodies : list bytes;
  dirty : bool;
  loaded : bool;
  held : list instr
}.
(** the constructors, page_contents.cpp:23-30: nothing is read yet, the list is empty *)
Definition open_stream (b : bytes) : contents := mkContents false [b] false false [].
Definition open_array (l : list bytes) : contents := mkContents true l false false [].

(** PageContents::Instructions, page_contents.cpp:99-135: the bodies are put one after the other into one stream and parsed once.  The new
    list replaces the one the object had subscribed to. *)
Definition instructions (c : contents) : res (list instr * contents) :=
  if loaded c then Ok (held c, c)
  else do l <- parse_content (concat (bodies c));; Ok (l, mkContents (in_array c) (bodies c) (dirty c) true l).

(** The calls that change the list, content_stream_instruction_base.h:80-82, 114-116 and c_content_instruction.cpp:74-117: none of them calls
    OnChanged, and nobody is subscribed to the list.  A place outside the list is undefined (std::vector). *)
Inductive change : Type :=
| ChAppend (i : instr)
| ChInsert (at_ : N) (i : instr)
| ChRemove (at_ : N)
| ChClear.
Definition change_list (ch : change) (l : list instr) : res (list instr) :=
  let size := N.of_nat (List.length l) in
  match ch with
  | ChAppend i => Ok (l ++ [i])
  | ChInsert n i => if size <? n then Undef else Ok (firstn (N.to_nat n) l ++ i :: skipn (N.to_nat n) l)
  | ChRemove n => if size <=? n then Undef else Ok (firstn (N.to_nat n) l ++ skipn (S (N.to_nat n)) l)
  | ChClear => Ok []
  end.

(** PageContents::RecalculateStreamData, page_contents.cpp:48-97.  SetBody leaves the object marked dirty (stream_object.cpp SetBody,
    object.cpp:216-223). *)
Definition recalculate (c : contents) : res (bool * contents) :=
  if negb (dirty c) then Ok (false, c)
  else
    let text := write_content (held c) in
    if in_array c then
      match bodies c with
      | [] => Throw EGeneral
      | _ :: t => Ok (true, mkContents true (text :: map (fun _ => []) t) true (loaded c) (held c))
      end
    else Ok (true, mkContents false [text] true (loaded c) (held c)).

(** One call on the handle of the contents (or on the list it gives out). *)
Inductive call : Type :=
| CGet                    (* PageContents_GetInstructionCollection *)
| CChange (ch : change)   (* ContentInstructionCollection_Append, _Insert, _Remove, _Clear *)
| CTouch                  (* any other change of the stream's dictionary or of the array: the object becomes dirty *)
| CRecalculate.           (* PageContents_RecalculateStreamData *)
Definition do_call (k : call) (c : contents) : res contents :=
  match k with
  | CGet => do '(_, c1) <- instructions c;; Ok c1
  | CChange ch => do '(l, c1) <- instructions c;; do l1 <- change_list ch l;; Ok (mkContents (in_array c1) (bodies c1) (dirty c1) true l1)
  | CTouch => Ok (mkContents (in_array c) (bodies c) true (loaded c) (held c))
  | CRecalculate => do '(_, c1) <- recalculate c;; Ok c1
  end.
Fixpoint do_calls (l : list call) (c : contents) : res contents :=
  match l with
  | [] => Ok c
  | k :: t => do c1 <- do_call k c;; do_calls t c1
  end.

(** Opening the page anew: only the bodies are in the file. *)
Definition reopened (c : contents) : contents := mkContents (in_array c) (bodies c) false false [].

(** Looking ahead without a cache: the reader is the text that is still to be read. *)
From Coq Require Import List NArith ZArith Bool.
From Verif.Model Require Import Base Token TokenCache.
Import ListNotations.
Local Open Scope Z_scope.

(** A position stands for the rest of the text from there on; -1 stands for the end. *)
Definition stands_for (text : bytes) (p : Z) (rest : bytes) : Prop :=
  (p = -1 /\ rest = []) \/ (0 <= p <= Z.of_nat (List.length text) /\ exists before, text = before ++ rest /\ Z.of_nat (List.length before) = p).

Definition next_token (d : dictionary) (rest : bytes) (tk : token) (after : bytes) : Prop := read_token d rest = Ok (tk, after).

(** One request: what the answer has to be and what is left. *)
Inductive answered (d : dictionary) (text : bytes) : bytes -> request -> answer -> bytes -> Prop :=
| ans_peek : forall s tk after, next_token d s tk after -> answered d text s QPeek (AToken (Ok tk)) s
| ans_type : forall s tk after, next_token d s tk after -> answered d text s QPeekType (AType (Ok (fst tk))) s
| ans_read : forall s tk after, next_token d s tk after -> answered d text s QRead (AToken (Ok tk)) after
| ans_expected : forall s tk after, next_token d s tk after -> answered d text s (QExpect (fst tk)) (AToken (Ok tk)) after
| ans_tell : forall s p, stands_for text p s -> answered d text s QTell (APosition p) s
| ans_seek : forall s p s', stands_for text p s' -> answered d text s (QSeek p) ANothing s'.

(** The first request that fails: the text at that place is no token, or the token is of another type. *)
Inductive refused (d : dictionary) : bytes -> request -> answer -> Prop :=
| ref_peek : forall s e, read_token d s = Throw e -> refused d s QPeek (AToken (Throw e))
| ref_type : forall s e, read_token d s = Throw e -> refused d s QPeekType (AType (Throw e))
| ref_read : forall s e, read_token d s = Throw e -> refused d s QRead (AToken (Throw e))
| ref_expect : forall s ty e, read_token d s = Throw e -> refused d s (QExpect ty) (AToken (Throw e))
| ref_other : forall s ty tk after, next_token d s tk after -> fst tk <> ty -> refused d s (QExpect ty) (AToken (Throw EGeneral)).

(** A list of requests, up to the first failure. *)
Inductive answers (d : dictionary) (text : bytes) : bytes -> list request -> list answer -> Prop :=
| as_nil : forall s, answers d text s [] []
| as_cons : forall s q a s' qs al, answered d text s q a s' -> answers d text s' qs al -> answers d text s (q :: qs) (a :: al)
| as_fail : forall s q a qs al, refused d s q a -> answers d text s (q :: qs) (a :: al).

(** Positions that are asked for lie in the text. *)
Definition in_text (text : bytes) (q : request) : Prop :=
  match q with QSeek p => p = -1 \/ 0 <= p <= Z.of_nat (List.length text) | _ => True end.

(** The tokens of a text, one after the other. *)
Inductive tokens_are (d : dictionary) : bytes -> list token -> Prop :=
| toks_nil : forall s, tokens_are d s []
| toks_cons : forall s tk after l, next_token d s tk after -> tokens_are d after l -> tokens_are d s (tk :: l).

(** The tokens that were taken, of the answers to requests. *)
Fixpoint taken (qs : list request) (al : list answer) : list token :=
  match qs, al with
  | QRead :: qs', AToken (Ok tk) :: al' => tk :: taken qs' al'
  | QExpect _ :: qs', AToken (Ok tk) :: al' => tk :: taken qs' al'
  | _ :: qs', _ :: al' => taken qs' al'
  | _, _ => []
  end.
Definition failed (a : answer) : Prop := match a with AToken (Ok _) | AType (Ok _) | APosition _ | ANothing => False | _ => True end.
Definition no_seek (q : request) : Prop := match q with QSeek _ => False | _ => True end.

(** A text that is no token, up to the byte that shows it: a lone closing bracket, or a character that does not belong in a hexadecimal
    string.  [next] is the byte behind it. *)
Definition blank (c : N) : Prop := In c [0; 9; 12; 32]%N.
Definition in_hex (c : N) : Prop := In c [0; 9; 10; 12; 13; 32]%N \/ (48 <= c <= 57)%N \/ (65 <= c <= 90)%N \/ (97 <= c <= 122)%N.
Inductive no_token (next : N) : bytes -> Prop :=
| no_close : next <> 62%N -> no_token next [62%N]
| no_hex : forall hs c, Forall in_hex hs -> ~ in_hex c -> c <> 62%N -> (hs = [] -> c <> 60%N) -> no_token next (60%N :: hs ++ [c]).

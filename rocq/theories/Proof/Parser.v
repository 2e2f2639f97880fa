(** The object parser with the dictionary of the file parser (Proof/ParserAny.v for the proofs). *)
From Coq Require Import List NArith ZArith Bool Lia String Sorted.
From Verif.Model Require Import Base Char Numbers SMap Object Token Parser.
From Verif.Spec Require Import Strings Grammar.
From Verif.Proof Require Import Tac Numbers Strings SMap Token.
From Verif.Proof Require Export ParserAny.
Import ListNotations.
Local Open Scope N_scope.

Lemma parser_kw : keywords_of parser_dictionary.
Proof. intros w _. reflexivity. Qed.

Notation head_ok := (ParserAny.head_ok parser_dictionary).
Notation look_ok := (ParserAny.look_ok parser_dictionary).
Notation follow := (ParserAny.follow parser_dictionary).
Definition tok_keyword := tok_keyword parser_dictionary parser_kw.
Definition look_head := look_head parser_dictionary.
Definition look_gap := look_gap parser_dictionary.
Definition tok_nat := tok_nat parser_dictionary.
Definition look_object := look_object parser_dictionary parser_kw.
Definition look_items := look_items parser_dictionary parser_kw.
Definition look_entries := look_entries parser_dictionary parser_kw.
Definition not_end := not_end parser_dictionary.
Definition first_token_object := first_token_object parser_dictionary parser_kw.
Definition rts_gap_obj := rts_gap_obj parser_dictionary.
Definition reads_text := reads_text parser_dictionary parser_kw.
Definition object_end_look := object_end_look parser_dictionary parser_kw.
Definition parse_text := parse_text parser_dictionary parser_kw.

(** Asking an opened file for an object: syntax/files/file.cpp:804-901, files/xref_entry.cpp:150-238, parsers/parser.cpp:200-330. *)
From Coq Require Import List NArith ZArith Bool.
From Verif.Model Require Import Base Object Token Xref FileWrite Chain.
Import ListNotations.
Local Open Scope N_scope.

(** File::GetIndirectObjectInternal, file.cpp:804-901, with XrefUsedEntry::Initialize, xref_entry.cpp:150-238, which reads the object at
    its offset; the length of a stream that is a reference is asked for in the same way (parser.cpp:233-245, ConvertTo<IntegerObjectPtr>).
    Simplifications: what was read before is not kept (Model/Loading.v), and a heading with other numbers (file.cpp:826-873,
    Model/Misnumber.v) is not modelled here. *)
Fixpoint get_object (fuel : nat) (file : bytes) (c : chain) (n g : N) : res obj :=
  match fuel with
  | O => NoFuel
  | S f =>
      match resolve_entry n g c with
      | None => Ok ONull
      | Some e =>
          let length_of a b :=
            do o <- get_object f file c a b;;
            match o with OInt z => Ok z | _ => Throw EConversion end in
          do '(n', g', o) <- load_entry parser_dictionary length_of file e;;
          if (n' =? n) && (g' =? g) then Ok o else Throw ENotModelled
      end
  end.

(** Asking an opened file for an object that may be in an object stream: syntax/files/file.cpp:176-236, 804-901,
    files/xref_entry.cpp:150-286, parsers/parser.cpp:200-410. *)
From Coq Require Import List NArith ZArith Bool.
From Verif.Model Require Import Base Object Token Xref FileWrite Chain ObjStream.
Import ListNotations.
Local Open Scope N_scope.

(** File::InitializeObjectStream, file.cpp:209-227, for the entry with number [n]: every object of the stream goes to the entry with its
    number and generation 0, which must exist (GetXrefEntry throws otherwise); of several objects with one number the last one stays, and
    an entry that gets none stays empty, which is null (xref_entry.cpp:109-121, 280-285) *)
Fixpoint take_member (c : chain) (n : N) (l : list (N * obj)) (o : obj) : res obj :=
  match l with
  | [] => Ok o
  | (a, x) :: r => match chain_entry a 0 c with None => Throw EObjectMissing | Some _ => take_member c n r (if a =? n then x else o) end
  end.

Section Get.
(** StreamObject::GetBody: the data decoded with its filters *)
Variable decode : list (bytes * obj) -> bytes -> res bytes.
(** File::GetIndirectObjectInternal, file.cpp:804-901, with XrefUsedEntry::Initialize (xref_entry.cpp:150-238), which reads the object at
    its offset, and XrefCompressedEntry::Initialize (262-286), which reads the object stream; the length of a stream that is a reference
    is asked for in the same way (parser.cpp:233-245).  Simplifications: what was read before is not kept (Model/Loading.v), and a
    heading with other numbers (file.cpp:826-873, Model/Misnumber.v) is not modelled here. *)
Fixpoint get_object (fuel : nat) (file : bytes) (c : chain) (n g : N) : res obj :=
  match fuel with
  | O => NoFuel
  | S f =>
      match resolve_entry n g c with
      | None => Ok ONull
      | Some e =>
          let length_of a b :=
            do o <- get_object f file c a b;;
            match o with OInt z => Ok z | _ => Throw EConversion end in
          match xdata e with
          | KComp s _ =>
              do o <- get_object f file c s 0;;
              match o with
              | OStream m data =>
                  do body <- decode m data;;
                  do l <- load_object_stream parser_dictionary length_of m body;;
                  take_member c n l ONull
              | _ => Throw EConversion
              end
          | _ =>
              do '(n', g', o) <- load_entry parser_dictionary length_of file e;;
              if (n' =? n) && (g' =? g) then Ok o else Throw ENotModelled
          end
      end
  end.
End Get.

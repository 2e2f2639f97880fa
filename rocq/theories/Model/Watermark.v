(** The mark of the free version: FileWriter::ApplyWatermark (syntax/files/file_writer.cpp:1533-1776), called by every full save without a
    license (34-86) on the copy of the document that is written.
    Simplifications: objects of indirect references are one step away (no references to references); kids are references; the decoded
    body of every stream is there (GetBody decodes on demand; the writer encodes it again, Model/StreamBody.v).  The text of the
    constant operations and of the image are parameters. *)
From Coq Require Import List NArith ZArith Bool String.
From Verif.Model Require Import Base Numbers SMap Object Equality.
Import ListNotations.
Local Open Scope N_scope.

(** the objects and the decoded bodies of the streams of the document that is written *)
Record doc : Type := { d_objects : N -> N -> obj; d_bodies : N -> N -> bytes }.
Definition put_object (d : doc) (n g : N) (o : obj) : doc :=
  {| d_objects := fun a b => if (a =? n) && (b =? g) then o else d_objects d a b; d_bodies := d_bodies d |}.
Definition put_body (d : doc) (s : N * N) (b : bytes) : doc :=
  {| d_objects := d_objects d; d_bodies := fun a c => if (a =? fst s) && (c =? snd s) then b else d_bodies d a c |}.

(** ObjectUtils::ConvertTo, object_utils.h:119-205: references are followed *)
Definition target (d : doc) (v : obj) : obj := match v with ORef n g => d_objects d n g | _ => v end.

(** a dictionary of the document: an object, and the keys that lead to a direct dictionary in it.  DictionaryObjectPtr is a pointer to it *)
Definition place : Type := (N * N * list bytes)%type.
Fixpoint sub_dict (m : list (bytes * obj)) (path : list bytes) : option (list (bytes * obj)) :=
  match path with
  | [] => Some m
  | k :: r => match sm_find k m with Some (ODict x) => sub_dict x r | _ => None end
  end.
Fixpoint put_sub (m : list (bytes * obj)) (path : list bytes) (m' : list (bytes * obj)) : list (bytes * obj) :=
  match path with
  | [] => m'
  | k :: r => match sm_find k m with Some (ODict x) => sm_insert k (ODict (put_sub x r m')) (sm_remove k m) | _ => m end
  end.
Definition dict_at (d : doc) (pl : place) : option (list (bytes * obj)) :=
  let '(n, g, path) := pl in match d_objects d n g with ODict m => sub_dict m path | _ => None end.
Definition set_at (d : doc) (pl : place) (m' : list (bytes * obj)) : doc :=
  let '(n, g, path) := pl in match d_objects d n g with ODict m => put_object d n g (ODict (put_sub m path m')) | _ => d end.

(** "if (!obj->Contains(key)) obj->Insert(key, empty); obj->FindAs<DictionaryObjectPtr>(key)", file_writer.cpp:1611-1624 *)
Definition child (d : doc) (pl : place) (key : bytes) : res (doc * place) :=
  match dict_at d pl with
  | None => Throw EConversion
  | Some m =>
      let d1 := if sm_contains key m then d else set_at d pl (sm_insert key (ODict []) m) in
      match dict_at d1 pl with
      | None => Throw EConversion
      | Some m1 =>
          match sm_find key m1 with
          | Some (ODict _) => let '(n, g, path) := pl in Ok (d1, (n, g, path ++ [key]))
          | Some (ORef a b) => match d_objects d1 a b with ODict _ => Ok (d1, (a, b, [])) | _ => Throw EConversion end
          | _ => Throw EConversion
          end
      end
  end.

(** the name of the font, file_writer.cpp:1626 *)
Definition mark_font : bytes := str "VanillaWatermarkFont".

Section Watermark.
Variable real : bool -> N -> N -> dbl.
(** the object of the font, AddWatermarkFont 1572-1585 *)
Variable font : N * N.
(** the text operations behind the Q, 1671-1713, and the inline image with its line end, 1735-1751 *)
Variable text image : bytes.

(** file_writer.cpp:1629-1632 *)
Definition add_font (d : doc) (pl : place) : doc :=
  match dict_at d pl with
  | Some m => if sm_contains mark_font m then d else set_at d pl (sm_insert mark_font (ORef (fst font) (snd font)) m)
  | None => d
  end.

(** IntegerObject::GetIntegerValue of a converted element; reals are truncated (numeric_object.cpp:143-158) *)
Definition box_number (d : doc) (v : obj) : res Z :=
  match target d v with
  | OInt z => Ok z
  | OReal neg m p => integer_value (QReal (real neg m p))
  | _ => Throw EConversion
  end.
(** where the image goes, file_writer.cpp:1716-1733: 201 / 4, 142 / 4 and an offset of 10; the subtraction is on 64 bits *)
Definition corner (d : doc) (box : option (list obj)) : res (option (Z * Z)) :=
  match box with
  | Some [a; b; c; e] =>
      do _ <- (match target d a with OInt _ | OReal _ _ _ => Ok tt | _ => Throw EConversion end);;
      do _ <- (match target d b with OInt _ | OReal _ _ _ => Ok tt | _ => Throw EConversion end);;
      do x <- box_number d c;;
      do y <- box_number d e;;
      if ((x - 60 <? - 2 ^ 63) || (y - 45 <? - 2 ^ 63))%Z then Undef else Ok (Some (x - 60, y - 45)%Z)
  | _ => Ok None
  end.
(** ApplyWatermarkContentStream, file_writer.cpp:1671-1776: what is put behind the content *)
Definition mark (c : option (Z * Z)) : bytes :=
  [10] ++ str "Q" ++ [10] ++ text ++
  match c with
  | Some (x, y) => str "50 0 0 35 " ++ to_string_Z x ++ str " " ++ to_string_Z y ++ str " cm" ++ [10] ++ image
  | None => []
  end.
(** ApplyWatermarkPrependSave for the first stream and ApplyWatermarkContentStream for the last one, file_writer.cpp:1658-1669, 1651-1652 *)
Definition mark_ends (d : doc) (box : option (list obj)) (first last : N * N) : res doc :=
  let d1 := put_body d first (str "q" ++ [10] ++ d_bodies d (fst first) (snd first)) in
  do c <- corner d1 box;;
  Ok (put_body d1 last (d_bodies d1 (fst last) (snd last) ++ mark c)).
(** ObjectUtils::IsType<ArrayObjectPtr<StreamObjectPtr>>, object_utils.h:222-249: every element is a stream *)
Fixpoint all_streams (d : doc) (l : list obj) : option (list (N * N)) :=
  match l with
  | [] => Some []
  | ORef n g :: t =>
      match d_objects d n g, all_streams d t with
      | OStream _ _, Some r => Some ((n, g) :: r)
      | _, _ => None
      end
  | _ :: _ => None
  end.
(** file_writer.cpp:1634-1655 *)
Definition mark_contents (d : doc) (box : option (list obj)) (v : obj) : res doc :=
  let array := fun l => match all_streams d l with Some (x :: r) => mark_ends d box x (last r x) | _ => Ok d end in
  match v with
  | ORef n g =>
      match d_objects d n g with
      | OStream _ _ => mark_ends d box (n, g) (n, g)
      | OArr l => array l
      | _ => Ok d
      end
  | OArr l => array l
  | _ => Ok d
  end.
(** ApplyWatermarkPageNode behind its kids, file_writer.cpp:1597-1656, for the node that is object [n] [g] *)
Definition mark_page (d : doc) (n g : N) : res doc :=
  match d_objects d n g with
  | ODict m =>
      do _ <- (match sm_find (str "Type") m with
               | None => Ok tt
               | Some v => match target d v with OName _ => Ok tt | _ => Throw EConversion end
               end);;
      do box <- (match sm_find (str "MediaBox") m with
                 | None => Ok None
                 | Some v => match target d v with OArr l => Ok (Some l) | _ => Throw EConversion end
                 end);;
      if sm_contains (str "Contents") m then
        do '(d1, resources) <- child d (n, g, []) (str "Resources");;
        do '(d2, fonts) <- child d1 resources (str "Font");;
        let d3 := add_font d2 fonts in
        match d_objects d3 n g with
        | ODict m3 => match sm_find (str "Contents") m3 with Some v => mark_contents d3 box v | None => Throw EObjectMissing end
        | _ => Throw EConversion
        end
      else Ok d
  | _ => Throw EConversion
  end.
(** ApplyWatermarkPageNode for a list of kids, file_writer.cpp:1587-1595 and 1567-1569 *)
Fixpoint mark_nodes (fuel : nat) (d : doc) (kids : list obj) : res doc :=
  match fuel with
  | O => NoFuel
  | S f =>
      match kids with
      | [] => Ok d
      | ORef n g :: rest =>
          match d_objects d n g with
          | ODict m =>
              do l <- (match sm_find (str "Kids") m with
                       | None => Ok []
                       | Some v => match target d v with OArr l => Ok l | _ => Throw EConversion end
                       end);;
              do d1 <- mark_nodes f d l;;
              do d2 <- mark_page d1 n g;;
              mark_nodes f d2 rest
          | _ => Throw EConversion
          end
      | ODict _ :: _ => Throw ENotModelled
      | _ :: _ => Throw EConversion
      end
  end.
(** ApplyWatermark, file_writer.cpp:1533-1570, without a license *)
Definition apply_watermark (fuel : nat) (d : doc) (trailer : list (bytes * obj)) : res doc :=
  match sm_find (str "Root") trailer with
  | None => Ok d
  | Some r =>
      match target d r with
      | ODict root =>
          match sm_find (str "Pages") root with
          | None => Ok d
          | Some p =>
              match target d p with
              | ODict pages =>
                  match sm_find (str "Kids") pages with
                  | None => Ok d
                  | Some k => match target d k with OArr kids => mark_nodes fuel d kids | _ => Throw EConversion end
                  end
              | _ => Throw EConversion
              end
          end
      | _ => Throw EConversion
      end
  end.
End Watermark.

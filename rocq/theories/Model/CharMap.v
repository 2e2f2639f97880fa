(** Character maps (ToUnicode): contents/character_map_data.cpp, contents/character_map_parser.cpp and
    semantics/objects/character_map.cpp. *)
From Coq Require Import List NArith ZArith Bool String.
From Coq Require Import List.
From Verif.Model Require Import Base Char Numbers SMap Object Token Parser Buffer Containers.
Import ListNotations.
Local Open Scope N_scope.

Definition two32 : N := 4294967296.

(** BaseFontRange::Difference of two bytes, character_map_data.cpp:64-102: one bit after the other from the lowest; [bp] is bit_position.
    The result is the difference and the borrow. *)
Fixpoint byte_difference_bits (k : nat) (bp : N) (source dest : N) (borrow : bool) (result : N) : N * bool :=
  match k with
  | O => (result, borrow)
  | S k' =>
      let src_bit := negb (N.land source bp =? 0) in
      let dest_bit := negb (N.land dest bp =? 0) in
      let '(src_bit, borrow) := if borrow then if negb src_bit then (true, true) else (false, false) else (src_bit, borrow) in
      let '(result_bit, borrow) := if negb src_bit && dest_bit then (true, true) else (xorb src_bit dest_bit, borrow) in
      let result := if result_bit then N.lor result bp else result in
      byte_difference_bits k' ((2 * bp) mod 256) source dest borrow result
  end.
Definition byte_difference (source dest : N) (borrow : bool) : N * bool := byte_difference_bits 8 1 source dest borrow 0.

(** BaseFontRange::Difference, character_map_data.cpp:104-135, from the last byte on: [i] counts bytes, the buffers are given reversed.
    Shifting by 32 or more is undefined.  The shift of a byte by 24 that does not fit an int is taken as the unsigned value. *)
Fixpoint difference_from (fuel : nat) (i : N) (src dst : bytes) (borrow : bool) (result : N) : res N :=
  match fuel with
  | O => NoFuel
  | S f =>
      match src, dst with
      | [], [] => Ok result
      | _, _ =>
          let '(d, borrow) := byte_difference (hd 0 src) (hd 0 dst) borrow in
          if 4 <=? i then Undef
          else difference_from f (i + 1) (tl src) (tl dst) borrow ((result + d * 256 ^ i) mod two32)
      end
  end.
Definition difference (source dest : bytes) : res N :=
  difference_from (S (Nat.max (List.length source) (List.length dest))) 0 (rev source) (rev dest) false 0.

(** BaseFontRange::IncrementInternal, character_map_data.cpp:148-178: the bytes from the last on ([data] is reversed), [result] what is
    already computed of the answer.  [count] is a uint32_t. *)
Fixpoint increment_bytes (i : N) (data : bytes) (count : N) (result : bytes) : res (bytes * N) :=
  match data with
  | [] => Ok (result, count)
  | item :: more =>
      if 4 <=? i then Undef
      else
        let diff := 255 - item in
        let current := (count / 256 ^ i) mod 256 in
        let less := (count + two32 - current * 256 ^ i) mod two32 in
        if current <=? diff then increment_bytes (i + 1) more less ((item + current) :: result)
        else if 4 <=? i + 1 then Undef
        else increment_bytes (i + 1) more ((less + 256 ^ (i + 1)) mod two32) ((item + current) mod 256 :: result)
  end.
(** character_map_data.cpp:180-191: what is left of the count; a value that does not fit a byte fails to convert *)
Fixpoint increment_rest (k : nat) (i : N) (count : N) (result : bytes) : res bytes :=
  match k with
  | O => Ok result
  | S k' =>
      let v := count mod ((i + 1) * 256) in
      if 255 <? v then Throw EConversion
      else increment_rest k' (i + 1) count (if v =? 0 then result else v :: result)
  end.
Definition increment (data : bytes) (count : N) : res bytes :=
  do '(result, rest) <- increment_bytes 0 (rev data) count [];;
  if 0 <? rest then increment_rest 4 0 rest result else Ok result.

(** BaseFontRange, character_map_data.h:14-43 *)
Record range : Type := { low : bytes; high : bytes; dest : obj }.

(** BaseFontRange::Contains, character_map_data.cpp:12-20 *)
Definition in_range (r : range) (key : bytes) : bool := value_le (low r) key && value_le key (high r).

Fixpoint hex_strings (l : list obj) : option (list bytes) :=
  match l with
  | [] => Some []
  | OHex v :: t => match hex_strings t with Some r => Some (v :: r) | None => None end
  | _ => None
  end.
(** BaseFontRange::GetMappedValue, character_map_data.cpp:22-62.  Simplification: a destination that is a reference is not looked up. *)
Definition range_value (r : range) (key : bytes) : res bytes :=
  if negb (in_range r key) then Throw EGeneral
  else
    match dest r with
    | OHex v => do diff <- difference key (low r);; increment v diff
    | OArr l =>
        match hex_strings l with
        | Some vs => do diff <- difference key (low r);; arr_get vs diff
        | None => Throw EGeneral
        end
    | _ => Throw EGeneral
    end.

(** CharacterMapData, character_map_data.h:45-77; the parts a ToUnicode lookup uses, and the name *)
Record char_map : Type := {
  codespace : list (bytes * bytes);
  ranges : list range;
  chars : list (bytes * bytes)
}.

(** UnicodeCharacterMap::GetMappedValue, character_map.cpp:41-107 *)
Definition in_codespace (m : char_map) (key : bytes) : bool :=
  existsb (fun r => value_le key (snd r) && value_le (fst r) key) (codespace m).
Definition mapped_value (m : char_map) (key : bytes) : res bytes :=
  if negb (in_codespace m key) then Throw EGeneral
  else
    match List.find (fun r => in_range r key) (ranges m) with
    | Some r => range_value r key
    | None =>
        match List.find (fun c => buffer_equals (fst c) key) (chars m) with
        | Some c => Ok (snd c)
        | None => Throw EGeneral
        end
    end.

(** CharacterMapTokenDictionary, token_dictionary.cpp:31-55 and 192-226 *)
Definition cmap_keywords : list bytes :=
  [str "begin"; str "end"; str "findresource"; str "dict"; str "begincmap"; str "endcmap"; str "begincodespacerange"; str "endcodespacerange";
   str "beginbfrange"; str "endbfrange"; str "beginbfchar"; str "endbfchar"; str "beginnotdefrange"; str "endnotdefrange";
   str "beginnotdefchar"; str "endnotdefchar"; str "begincidrange"; str "endcidrange"; str "begincidchar"; str "endcidchar";
   str "def"; str "CMapName"; str "currentdict"; str "defineresource"; str "pop"].
Definition cmap_dictionary : dictionary := fun w => if existsb (bytes_eqb w) cmap_keywords then TyKw w else parser_dictionary w.

Section Parser.
Variable resolve_length : N -> N -> res Z.
Notation d := cmap_dictionary.

(** ParserBase::ReadHexadecimalString, parser.cpp:290-295.  Simplification: the digits are decoded at once, so that a string with a letter
    that is no digit fails here and not when its value is asked for. *)
Definition read_hex_string (s : bytes) : res (bytes * bytes) :=
  do '(raw, rest) <- expect_skip d TyHex s;;
  do v <- hex_decode raw;;
  Ok (v, rest).

(** the loops of character_map_parser.cpp:35-44, 78-92, 125-139 and 172-186: pairs of strings; each step reads two strings, so that
    the length of the text bounds the steps *)
Fixpoint read_pairs (fuel : nat) (count : Z) (s : bytes) : res (list (bytes * bytes) * bytes) :=
  if (count <=? 0)%Z then Ok ([], s)
  else match fuel with
       | O => NoFuel
       | S f =>
           do '(a, s1) <- read_hex_string s;;
           do '(b, s2) <- read_hex_string s1;;
           do '(l, s3) <- read_pairs f (count - 1) s2;;
           Ok ((a, b) :: l, s3)
       end.
(** 53-69, 100-116, 147-163: ranges *)
Fixpoint read_ranges (fuel : nat) (count : Z) (s : bytes) : res (list range * bytes) :=
  if (count <=? 0)%Z then Ok ([], s)
  else match fuel with
       | O => NoFuel
       | S f =>
           do '(a, s1) <- read_hex_string s;;
           do '(b, s2) <- read_hex_string s1;;
           do '(o, s3) <- parse_direct d resolve_length s2;;
           do '(l, s4) <- read_ranges f (count - 1) s3;;
           Ok ({| low := a; high := b; dest := o |} :: l, s4)
       end.

(** a section with pairs: the integer [count] was read, [s] begins with the keyword *)
Definition pair_section (first last : bytes) (count : bytes) (s : bytes) : res (list (bytes * bytes) * bytes) :=
  do '(_, s1) <- expect_skip d (TyKw first) s;;
  do n <- stoll count;;
  do '(l, s2) <- read_pairs (S (List.length s1)) n s1;;
  do '(_, s3) <- expect_skip d (TyKw last) s2;;
  Ok (l, s3).
Definition range_section (first last : bytes) (count : bytes) (s : bytes) : res (list range * bytes) :=
  do '(_, s1) <- expect_skip d (TyKw first) s;;
  do n <- stoll count;;
  do '(l, s2) <- read_ranges (S (List.length s1)) n s1;;
  do '(_, s3) <- expect_skip d (TyKw last) s2;;
  Ok (l, s3).

(** DictionaryObject::FindAs of an entry that must be there: 195-197.  Strings are any string, the supplement an integer. *)
Definition has_string (l : list (bytes * obj)) (k : bytes) : res unit :=
  match sm_find k l with
  | Some (OLit _) | Some (OHex _) => Ok tt
  | Some (ORef _ _) => Throw ENotModelled
  | Some _ => Throw EConversion
  | None => Throw EObjectMissing
  end.
Definition has_integer (l : list (bytes * obj)) (k : bytes) : res unit :=
  match sm_find k l with
  | Some (OInt _) => Ok tt
  | Some (OReal _ _ _) | Some (ORef _ _) => Throw ENotModelled
  | Some _ => Throw EConversion
  | None => Throw EObjectMissing
  end.

(** CharacterMapParser::ReadCharacterMapData, character_map_parser.cpp:21-214, one round *)
Definition add_codespace (m : char_map) (l : list (bytes * bytes)) := {| codespace := codespace m ++ l; ranges := ranges m; chars := chars m |}.
Definition add_ranges (m : char_map) (l : list range) := {| codespace := codespace m; ranges := ranges m ++ l; chars := chars m |}.
Definition add_chars (m : char_map) (l : list (bytes * bytes)) := {| codespace := codespace m; ranges := ranges m; chars := chars m ++ l |}.

Definition cmap_round (m : char_map) (tk : token) (ahead : ttype) (s : bytes) : res (char_map * bytes) :=
  match fst tk with
  | TyInt =>
      if ttype_eqb ahead (TyKw (str "begincodespacerange")) then
        do '(l, r) <- pair_section (str "begincodespacerange") (str "endcodespacerange") (snd tk) s;; Ok (add_codespace m l, r)
      else if ttype_eqb ahead (TyKw (str "beginbfrange")) then
        do '(l, r) <- range_section (str "beginbfrange") (str "endbfrange") (snd tk) s;; Ok (add_ranges m l, r)
      else if ttype_eqb ahead (TyKw (str "beginbfchar")) then
        do '(l, r) <- pair_section (str "beginbfchar") (str "endbfchar") (snd tk) s;; Ok (add_chars m l, r)
      else if ttype_eqb ahead (TyKw (str "beginnotdefrange")) then
        do '(_, r) <- range_section (str "beginnotdefrange") (str "endnotdefrange") (snd tk) s;; Ok (m, r)
      else if ttype_eqb ahead (TyKw (str "beginnotdefchar")) then
        do '(_, r) <- pair_section (str "beginnotdefchar") (str "endnotdefchar") (snd tk) s;; Ok (m, r)
      else if ttype_eqb ahead (TyKw (str "begincidrange")) then
        do '(_, r) <- range_section (str "begincidrange") (str "endcidrange") (snd tk) s;; Ok (m, r)
      else if ttype_eqb ahead (TyKw (str "begincidchar")) then
        do '(_, r) <- pair_section (str "begincidchar") (str "endcidchar") (snd tk) s;; Ok (m, r)
      else Ok (m, s)
  | TyName =>
      if bytes_eqb (snd tk) (str "CIDSystemInfo") then
        do '(_, s1) <- expect_skip d TyDictBegin s;;
        do '(l, s2) <- parse_dict d resolve_length (2 * List.length s1 + 3) s1 [];;
        do _ <- has_string l (str "Registry");;
        do _ <- has_string l (str "Ordering");;
        do _ <- has_integer l (str "Supplement");;
        do '(_, s3) <- expect_skip d (TyKw (str "def")) s2;;
        Ok (m, s3)
      else if bytes_eqb (snd tk) (str "CMapName") then
        do '(_, s1) <- expect_skip d TyName s;;
        do '(_, s2) <- expect_skip d (TyKw (str "def")) s1;;
        Ok (m, s2)
      else if bytes_eqb (snd tk) (str "CMapType") then
        do '(n, s1) <- expect_skip d TyInt s;;
        do _ <- stoll n;;
        do '(_, s2) <- expect_skip d (TyKw (str "def")) s1;;
        Ok (m, s2)
      else Ok (m, s)
  | _ => Ok (m, s)
  end.
Fixpoint read_cmap_from (fuel : nat) (m : char_map) (s : bytes) : res char_map :=
  match fuel with
  | O => NoFuel
  | S f =>
      do '(tk, r) <- read_token_skip d s;;
      do ahead <- peek_type_skip d r;;
      match fst tk with
      | TyEof => Ok m
      | _ => do '(m', r') <- cmap_round m tk ahead r;; read_cmap_from f m' r'
      end
  end.
Definition empty_map : char_map := {| codespace := []; ranges := []; chars := [] |}.
Definition read_cmap (s : bytes) : res char_map := read_cmap_from (S (List.length s)) empty_map s.
End Parser.

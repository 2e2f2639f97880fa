(** Images: syntax/filters/dct_decode_filter.cpp and jpx_decode_filter.cpp.

    libjpeg and openjpeg are parameters.  Of libjpeg the model has what its documentation says about source and destination managers:
    it takes bytes one after the other or skips some, and it gives bytes one after the other.  Of openjpeg it has the loop that reads
    from the stream (opj_stream_read_data of its cio.c, which is not part of this repository). *)
From Coq Require Import List NArith ZArith Bool String.
From Coq Require Import List.
From Verif.Model Require Import Base SMap Object Arith Containers Encryption.
Import ListNotations.
Local Open Scope N_scope.

(** image_metadata_object_attribute.h:9-76 *)
Inductive color : Type := CUndefined | CGray | CRgb | CCmyk.
Record metadata : Type := { i_width : Z; i_height : Z; i_components : Z; i_color : color }.
(** base_object_attribute.h:11-18 *)
Definition image_metadata : N := 4.

(** *** DCTDecodeFilter::Decode *)
(** What the decompressor does with the data: it stops with an error, has the result, takes the next byte, or skips some. *)
Inductive reader (A : Type) : Type :=
| RFail
| RDone (a : A)
| RByte (k : N -> reader A)
| RSkip (n : N) (k : reader A).
Arguments RFail {A}. Arguments RDone {A} a. Arguments RByte {A} k. Arguments RSkip {A} n k.

(** The source manager, dct_decode_filter.cpp:52-86 and 311-336: [input] is the buffer, [pos] is next_input_byte.  When bytes_in_buffer
    is zero, fill_input_buffer (lines 56-63) is asked for more: it claims to have some and changes nothing, so that the next byte is
    taken from behind the buffer.  Nothing else depends on bytes_in_buffer.  skip_input_data (lines 65-77) moves the pointer without
    looking.  error_exit (36-43) throws; that an exception leaves C code is not modelled. *)
Fixpoint serve {A : Type} (input : bytes) (pos : N) (r : reader A) : res A :=
  match r with
  | RFail => Throw EGeneral
  | RDone a => Ok a
  | RByte k => match nth_error input (N.to_nat pos) with Some b => serve input (pos + 1) (k b) | None => Undef end
  | RSkip n k => if pos + n <=? size_of input then serve input (pos + n) k else Undef
  end.

(** what the decompressor has read: output_width, output_height, output_components, out_color_space (and out_color_components, which is
    the same number unless colours are quantized) and the scan lines *)
Record picture : Type := { p_width : N; p_height : N; p_components : N; p_color : color; p_lines : list bytes }.

(** lines 358-381: one scan line into the buffer, which keeps its bytes when there are two or more than four components *)
Fixpoint copy_pixels (n : nat) (size : nat) (line buffer : bytes) : bytes :=
  match n with
  | O => buffer
  | S n' => firstn size line ++ copy_pixels n' size (skipn size line) (skipn size buffer)
  end.
Definition copy_line (p : picture) (line buffer : bytes) : bytes :=
  if p_components p =? 4 then copy_pixels (N.to_nat (p_width p)) 4 line buffer
  else if p_components p =? 3 then copy_pixels (N.to_nat (p_width p)) 3 line buffer
  else if p_components p =? 1 then firstn (N.to_nat (p_width p)) line ++ skipn (N.to_nat (p_width p)) buffer
  else buffer.
(** lines 352-384 *)
Fixpoint copy_lines (p : picture) (lines : list bytes) (buffer : bytes) : bytes :=
  match lines with
  | [] => []
  | l :: r => let b := copy_line p l buffer in b ++ copy_lines p r b
  end.
(** lines 306-415.  [length] is the length the caller gives; the buffer is cut when the stream has less (input_stream.cpp:18-33), the
    number of bytes in it is not (line 336), which changes nothing because that number is not used. *)
Definition dct_decode (jpeg : reader picture) (attributes : attrs metadata) (stream : bytes) (length : N) : res (bytes * attrs metadata) :=
  let input := firstn (N.to_nat length) stream in
  do p <- serve input 0 jpeg;;
  do row_bytes <- safe_multiply uint32_t uint32_t (Z.of_N (p_width p)) (Z.of_N (p_components p));;
  let out := copy_lines p (p_lines p) (repeat 0 (Z.to_nat row_bytes)) in
  let m := {| i_width := wrap int32_t (Z.of_N (p_width p)); i_height := wrap int32_t (Z.of_N (p_height p));
              i_components := wrap int32_t (Z.of_N (p_components p)); i_color := p_color p |} in
  do a <- attr_add attributes image_metadata m false;;
  Ok (out, a).

(** *** DCTDecodeFilter::Encode *)
(** GetColorSpace, lines 141-155, and the components jpeg_set_defaults gives them.  An unknown colour space has no components, and
    jpeg_set_defaults refuses it. *)
Definition components_of (name : bytes) : option N :=
  if beq name (str "RGB") || beq name (str "DeviceRGB") then Some 3
  else if beq name (str "G") || beq name (str "DeviceGray") then Some 1
  else if beq name (str "CMYK") || beq name (str "DeviceCMYK") then Some 4
  else None.

Section Compress.
(** jpeg_start_compress, jpeg_write_scanlines and jpeg_finish_compress: the bytes they give to the destination manager, one by one *)
Variable jpeg : Type.
Variable start : N -> N -> N -> option (jpeg * bytes).
Variable write_line : jpeg -> bytes -> jpeg * bytes.
Variable finish : jpeg -> bytes.

(** The destination manager, lines 23-34 and 88-139: [written] went to the stream, [held] are the bytes in the buffer *)
Record destination : Type := { written : bytes; held : bytes }.
Definition buffer_size : N := 4096.
(** one byte: it is put into the buffer, and a full buffer is emptied (empty_output_buffer, lines 105-122) *)
Definition emit (d : destination) (b : N) : destination :=
  let h := held d ++ [b] in
  if buffer_size <=? size_of h then {| written := written d ++ h; held := [] |} else {| written := written d; held := h |}.
(** init_destination, lines 88-103; term_destination, lines 124-139 *)
Definition init_destination : destination := {| written := []; held := [] |}.
Definition term_destination (d : destination) : bytes := written d ++ held d.

(** lines 266-294: [lines] are the scan lines to go, [src] what is left of the data, [left] what is left of the length *)
Fixpoint compress_lines (lines : nat) (row_size : N) (src : bytes) (left : Z) (j : jpeg) (d : destination) : res (jpeg * destination) :=
  match lines with
  | O => Ok (j, d)
  | S n =>
      if (left <? Z.of_N row_size)%Z then Throw EGeneral
      else if size_of src <? row_size then Throw EGeneral
      else
        let '(j', out) := write_line j (firstn (N.to_nat row_size) src) in
        compress_lines n row_size (skipn (N.to_nat row_size) src) (left - Z.of_N row_size) j' (fold_left emit out d)
  end.
(** the parameters, lines 163-228: an attribute of the object wins over the dictionary.  Assigning to *width changes the object, and when
    it comes from the dictionary that is the object of the dictionary; this effect on the dictionary is not modelled. *)
Definition color_name (c : color) : option bytes :=
  match c with CGray => Some (str "DeviceGray") | CRgb => Some (str "DeviceRGB") | CCmyk => Some (str "DeviceCMYK") | CUndefined => None end.
Definition optional {A} (present : bool) (r : res A) : res (option A) := if present then (do a <- r;; Ok (Some a)) else Ok None.
Definition find_color (params : dict) : res (option bytes) :=
  match sm_find (str "ColorSpace") params with
  | None => Ok None
  | Some (OName n) => Ok (Some n)
  | Some (OArr _) => Throw ENotSupported
  | Some (ORef _ _) => Throw ENotModelled
  | Some _ => Ok None
  end.
Definition image_params (params : dict) (attributes : attrs metadata) : res (option Z * option Z * option bytes) :=
  do w <- optional (sm_contains (str "Width") params) (find_integer (str "Width") params);;
  do h <- optional (sm_contains (str "Height") params) (find_integer (str "Height") params);;
  do c <- find_color params;;
  match at_find image_metadata attributes with
  | Some m => Ok (Some (i_width m), Some (i_height m), match color_name (i_color m) with Some n => Some n | None => c end)
  | None => Ok (w, h, c)
  end.
Definition needed {A} (o : option A) : res A := match o with Some a => Ok a | None => Throw EGeneral end.
(** lines 159-298.  [start] is jpeg_start_compress, which refuses what libjpeg cannot compress; SafeMultiply of the width and the
    components, line 262, cannot overflow then. *)
Definition dct_encode (params : dict) (attributes : attrs metadata) (stream : bytes) (length : Z) : res bytes :=
  do p <- image_params params attributes;;
  let '(ow, oh, oc) := p in
  do w <- needed ow;;
  do h <- needed oh;;
  do c <- needed oc;;
  do w' <- safe_convert uint32_t int64_t w;;
  do h' <- safe_convert uint32_t int64_t h;;
  do n <- needed (components_of c);;
  do s <- needed (start (Z.to_N w') (Z.to_N h') n);;
  let '(j, out) := s in
  do row_size <- safe_multiply int64_t uint32_t w' (Z.of_N n);;
  do r <- compress_lines (Z.to_nat h') (Z.to_N row_size) stream length j (fold_left emit out init_destination);;
  let '(j', d) := r in
  Ok (term_destination (fold_left emit (finish j') d)).
End Compress.

(** *** JPXDecodeFilter::Decode *)
(** opj_image_t and its components: [c_data] has c_w * c_h numbers *)
Record component : Type := { c_w : N; c_h : N; c_data : list Z }.
Record image : Type := { x1 : N; y1 : N; m_color : color; comps : list component }.

(** 32 bits without sign *)
Definition u32 (n : N) : N := n mod 2 ^ 32.
(** lines 143-147: one sample; the vector is not checked, nor is the array of the component *)
Definition set_at (l : bytes) (i : N) (v : N) : res bytes :=
  if i <? size_of l then Ok (firstn (N.to_nat i) l ++ v :: skipn (N.to_nat i + 1) l) else Undef.
Definition put_sample (m : image) (y x : N) (k : nat) (result : bytes) : res bytes :=
  let data_offset := u32 (u32 (y * x1 m) + x) in
  let result_offset := u32 (u32 (u32 (u32 (y * x1 m) + x) * N.of_nat (List.length (comps m))) + N.of_nat k) in
  match nth_error (comps m) k with
  | None => Undef
  | Some c =>
      match nth_error (c_data c) (N.to_nat data_offset) with
      | None => Undef
      | Some v => do b <- safe_convert uint8_t int32_t v;; set_at result result_offset (Z.to_N b)
      end
  end.
(** jpx_decode_filter.cpp:140-150, the loops *)
Fixpoint loop {A : Type} (n : nat) (i : nat) (f : nat -> A -> res A) (a : A) : res A :=
  match n with O => Ok a | S n' => do a' <- f i a;; loop n' (S i) f a' end.
Definition put_samples (m : image) (result : bytes) : res bytes :=
  loop (N.to_nat (y1 m)) 0 (fun y r => loop (N.to_nat (x1 m)) 0 (fun x r => loop (List.length (comps m)) 0 (fun k r =>
    put_sample m (N.of_nat y) (N.of_nat x) k r) r) r) result.
(** jpx_decode_filter.cpp:128-181, after opj_decode: the colour space is checked, and the size is computed with 32 bits *)
Definition jpx_samples (m : image) (attributes : attrs metadata) : res (bytes * attrs metadata) :=
  match m_color m with
  | CUndefined => Throw EGeneral
  | c =>
      let image_size := u32 (u32 (x1 m * y1 m) * N.of_nat (List.length (comps m))) in
      do out <- put_samples m (repeat 0 (N.to_nat image_size));;
      do a <- attr_add attributes image_metadata
        {| i_width := wrap int32_t (Z.of_N (x1 m)); i_height := wrap int32_t (Z.of_N (y1 m));
           i_components := wrap int32_t (Z.of_N (N.of_nat (List.length (comps m)))); i_color := c |} false;;
      Ok (out, a)
  end.

(** memory_stream_read, jpx_decode_filter.cpp:27-37: how much was read, which is nothing at the end; -1 (here [None]) is never returned *)
Definition stream_read (stream : bytes) (want : N) : option bytes * bytes :=
  (Some (firstn (N.to_nat want) stream), skipn (N.to_nat want) stream).
(** opj_stream_read_data of openjpeg: [buffered] are the bytes it holds, [size] is the size of its buffer (line 83: the length of the
    data), [stream] what the callback has not given yet.  It reads until it has enough or the callback says that there is no more.
    [None]: out of fuel. *)
Fixpoint opj_read (fuel : nat) (read : bytes -> N -> option bytes * bytes) (size : N) (stream : bytes) (want : N) (got : bytes) :
    option (bytes * bytes * bytes) :=
  match fuel with
  | O => None
  | S f =>
      let direct := negb (want <? size) in
      let '(r, stream') := read stream (if direct then want else size) in
      match r with
      | None => Some (got, [], stream')
      | Some b =>
          if size_of b <? want then opj_read f read size stream' (want - size_of b) (got ++ b)
          else Some (got ++ firstn (N.to_nat want) b, skipn (N.to_nat want) b, stream')
      end
  end.
Definition opj_stream_read_data (fuel : nat) (read : bytes -> N -> option bytes * bytes) (size : N) (buffered stream : bytes) (want : N) :
    option (bytes * bytes * bytes) :=
  if want <=? size_of buffered then Some (firstn (N.to_nat want) buffered, skipn (N.to_nat want) buffered, stream)
  else opj_read fuel read size stream (want - size_of buffered) buffered.

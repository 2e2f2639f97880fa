(** Compressing and decompressing in blocks: utils/zlib_wrapper.cpp.
    zlib itself is a parameter: a state, and the functions inflate and deflate on it.  A call gets the input that is available and the
    room for output and gives its status, the output and the input that is left.
    Simplifications: the input is a buffer (zlib_wrapper.cpp:197-205), as everywhere in the library and in the C interface, so that the
    stream begins at 0 and holds as many bytes as are asked for; initializing zlib succeeds; sizes are natural numbers. *)
From Coq Require Import List NArith Arith Bool.
From Verif.Model Require Import Base.
Import ListNotations.
Local Open Scope nat_scope.

(** zlib.h *)
Inductive zstatus : Type := ZOk | ZStreamEnd | ZNeedDict | ZStreamError | ZDataError | ZMemError | ZBufError.
Inductive zflush : Type := ZNoFlush | ZFinish.
(** constant::BUFFER_SIZE, utils/constants.h *)
Definition buffer_size : nat := N.to_nat 4096.

(** the result, ZlibDataErrorException with its size, GeneralException; [Unfinished] when the fuel of the model ended *)
Inductive unpacked : Type := Unpacked (b : bytes) | DataError (size : nat) | OtherError | Unfinished.

Section Inflate.
Variable zstate : Type.
Variable inflate : zstate -> bytes -> nat -> zstatus * bytes * bytes * zstate.
Variable init : zstate.

(** "run inflate() on input until output buffer not full", zlib_wrapper.cpp:60-93.  Output of a call that reports an error is not added. *)
Inductive drained : Type := Stop (r : unpacked) | Next (rv : zstatus) (s : zstate) (acc : bytes).
Fixpoint drain (expect : bool) (fuel : nat) (s : zstate) (input acc : bytes) : drained :=
  match fuel with
  | O => Stop Unfinished
  | S fuel' =>
      let '(rv, out, rest, s') := inflate s input buffer_size in
      match rv with
      | ZStreamError => Stop (DataError (length acc))
      | ZDataError => Stop (if expect then Unpacked acc else DataError (length acc))
      | ZNeedDict | ZMemError => Stop OtherError
      | ZOk | ZStreamEnd | ZBufError =>
          if length out =? buffer_size then drain expect fuel' s' rest (acc ++ out) else Next rv s' (acc ++ out)
      end
  end.

(** the loop over the input, zlib_wrapper.cpp:42-96: [data] is what was not read yet, [total] is read_total.  What a block has left
    over when the next one is read is lost (line 56 sets next_in). *)
Fixpoint unpack (expect : bool) (errors_after fuel steps : nat) (s : zstate) (data : bytes) (total : nat) (acc : bytes) : unpacked :=
  match steps with
  | O => Unfinished
  | S steps' =>
      let size := if expect && (errors_after <=? total) then Nat.min 1 (length data) else Nat.min (length data) buffer_size in
      if size =? 0 then Unpacked acc
      else
        match drain expect fuel s (firstn size data) acc with
        | Stop r => r
        | Next ZStreamEnd _ acc' => Unpacked acc'
        | Next _ s' acc' => unpack expect errors_after fuel steps' s' (skipn size data) (total + size) acc'
        end
  end.
(** Inflate, zlib_wrapper.cpp:18-105: errors are expected when errors_after is not the length (line 26) *)
Definition inflate_after (errors_after fuel : nat) (data : bytes) : unpacked :=
  unpack (negb (length data =? errors_after)) errors_after fuel (S (length data)) init data 0 [].
(** ZlibWrapper::Inflate, zlib_wrapper.cpp:175-195, 202-205 *)
Definition zlib_inflate (fuel : nat) (data : bytes) : unpacked :=
  match inflate_after (length data) fuel data with
  | DataError size => if size =? 0 then DataError 0 else inflate_after size fuel data
  | r => r
  end.
End Inflate.
Arguments Stop {zstate} _.
Arguments Next {zstate} _ _ _.

Section Deflate.
Variable zstate : Type.
Variable deflate : zstate -> bytes -> nat -> zflush -> zstatus * bytes * bytes * zstate.
Variable init : zstate.

(** zlib_wrapper.cpp:145-156 *)
Fixpoint press (flush : zflush) (fuel : nat) (s : zstate) (input acc : bytes) : drained zstate :=
  match fuel with
  | O => Stop Unfinished
  | S fuel' =>
      let '(rv, out, rest, s') := deflate s input buffer_size flush in
      match rv with
      | ZStreamError => Stop (DataError (length acc))
      | _ => if length out =? buffer_size then press flush fuel' s' rest (acc ++ out) else Next rv s' (acc ++ out)
      end
  end.
(** zlib_wrapper.cpp:136-159; [steps] also counts the rounds without input *)
Fixpoint pack (fuel steps : nat) (s : zstate) (data acc : bytes) : unpacked :=
  match steps with
  | O => Unfinished
  | S steps' =>
      let size := Nat.min (length data) buffer_size in
      match press (if size =? 0 then ZFinish else ZNoFlush) fuel s (firstn size data) acc with
      | Stop r => r
      | Next ZStreamEnd _ acc' => Unpacked acc'
      | Next _ s' acc' => pack fuel steps' s' (skipn size data) acc'
      end
  end.
(** Deflate, zlib_wrapper.cpp:111-169, 171-173, 197-200 *)
Definition zlib_deflate (fuel : nat) (data : bytes) : unpacked := pack fuel (S (length data)) init data [].
End Deflate.

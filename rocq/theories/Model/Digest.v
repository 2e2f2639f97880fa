(** The two algorithms of OpenSSL that the encryption code calls, as functions on byte lists: MD5 (RFC 1321) and RC4.
    They are not code of this repository; they stand for EVP_md5 (syntax/utils/encryption.cpp:226-268 and the other
    EVP_Digest calls of that file) and EVP_rc4 (encryption.cpp:136-224).  The examples at the end compare them with published
    test values.  AES is not written out: see Model/Encryption.v. *)
From Coq Require Import List NArith Bool String.
From Coq Require Import List.
From Verif Require Import Model.Base.
Import ListNotations.
Local Open Scope N_scope.

Definition w32 (n : N) : N := N.land n 0xffffffff.
Definition add32 (a b : N) : N := w32 (a + b).
Definition not32 (a : N) : N := N.lxor a 0xffffffff.
Definition rot32 (n s : N) : N := w32 (N.lor (N.shiftl n s) (N.shiftr n (32 - s))).

(** The low [count] bytes of a number, least significant first. *)
Fixpoint le_bytes (count : nat) (n : N) : bytes :=
  match count with
  | O => []
  | S c => N.land n 255 :: le_bytes c (N.shiftr n 8)
  end.

Fixpoint le_word (l : bytes) : N :=
  match l with
  | [] => 0
  | b :: t => b + 256 * le_word t
  end.

(** RFC 1321, 3.4: floor (2^32 * |sin (i + 1)|). *)
Definition md5_table : list N :=
  [
   0xd76aa478; 0xe8c7b756; 0x242070db; 0xc1bdceee;
   0xf57c0faf; 0x4787c62a; 0xa8304613; 0xfd469501;
   0x698098d8; 0x8b44f7af; 0xffff5bb1; 0x895cd7be;
   0x6b901122; 0xfd987193; 0xa679438e; 0x49b40821;
   0xf61e2562; 0xc040b340; 0x265e5a51; 0xe9b6c7aa;
   0xd62f105d; 0x02441453; 0xd8a1e681; 0xe7d3fbc8;
   0x21e1cde6; 0xc33707d6; 0xf4d50d87; 0x455a14ed;
   0xa9e3e905; 0xfcefa3f8; 0x676f02d9; 0x8d2a4c8a;
   0xfffa3942; 0x8771f681; 0x6d9d6122; 0xfde5380c;
   0xa4beea44; 0x4bdecfa9; 0xf6bb4b60; 0xbebfbc70;
   0x289b7ec6; 0xeaa127fa; 0xd4ef3085; 0x04881d05;
   0xd9d4d039; 0xe6db99e5; 0x1fa27cf8; 0xc4ac5665;
   0xf4292244; 0x432aff97; 0xab9423a7; 0xfc93a039;
   0x655b59c3; 0x8f0ccc92; 0xffeff47d; 0x85845dd1;
   0x6fa87e4f; 0xfe2ce6e0; 0xa3014314; 0x4e0811a1;
   0xf7537e82; 0xbd3af235; 0x2ad7d2bb; 0xeb86d391
  ].

Definition md5_shifts : list N :=
  [7; 12; 17; 22; 5; 9; 14; 20; 4; 11; 16; 23; 6; 10; 15; 21].

Definition md5_state := (N * N * N * N)%type.

(** One of the 64 steps of a block; [i] counts the steps, [m] is the block as sixteen words. *)
Definition md5_step (m : list N) (s : md5_state) (ik : N * N) : md5_state :=
  let '(i, k) := ik in
  let '(a, b, c, d) := s in
  let round := i / 16 in
  let f := if round =? 0 then N.lor (N.land b c) (N.land (not32 b) d)
           else if round =? 1 then N.lor (N.land d b) (N.land (not32 d) c)
           else if round =? 2 then N.lxor (N.lxor b c) d
           else N.lxor c (N.lor b (not32 d)) in
  let g := if round =? 0 then i
           else if round =? 1 then (5 * i + 1) mod 16
           else if round =? 2 then (3 * i + 5) mod 16
           else (7 * i) mod 16 in
  let shift := nth (N.to_nat (4 * round + i mod 4)) md5_shifts 0 in
  let sum := add32 (add32 (add32 a f) k) (nth (N.to_nat g) m 0) in
  (d, add32 b (rot32 sum shift), b, c).

Fixpoint words (count : nat) (l : bytes) : list N :=
  match count with
  | O => []
  | S c => le_word (firstn 4 l) :: words c (skipn 4 l)
  end.

Definition md5_block (s : md5_state) (block : bytes) : md5_state :=
  let '(a, b, c, d) := s in
  let '(a', b', c', d') := fold_left (md5_step (words 16 block)) (combine (nrange 0 64) md5_table) s in
  (add32 a a', add32 b b', add32 c c', add32 d d').

Fixpoint md5_blocks (count : nat) (s : md5_state) (l : bytes) : md5_state :=
  match count with
  | O => s
  | S c => md5_blocks c (md5_block s (firstn 64 l)) (skipn 64 l)
  end.

Definition md5_padded (data : bytes) : bytes :=
  let len := N.of_nat (List.length data) in
  let zeros := (119 - len mod 64) mod 64 in
  data ++ [128] ++ repeat 0 (N.to_nat zeros) ++ le_bytes 8 (8 * len).

Definition md5 (data : bytes) : bytes :=
  let padded := md5_padded data in
  let '(a, b, c, d) :=
    md5_blocks (N.to_nat (N.of_nat (length padded) / 64)) (0x67452301, 0xefcdab89, 0x98badcfe, 0x10325476) padded in
  le_bytes 4 a ++ le_bytes 4 b ++ le_bytes 4 c ++ le_bytes 4 d.

(** RC4: the permutation of 0..255 as a list. *)
Fixpoint put (l : list N) (i : nat) (v : N) : list N :=
  match l, i with
  | [], _ => []
  | _ :: t, O => v :: t
  | a :: t, S k => a :: put t k v
  end.

Definition at_ (l : list N) (i : N) : N := nth (N.to_nat i) l 0.

Definition swap (s : list N) (i j : N) : list N :=
  let a := at_ s i in
  let b := at_ s j in
  put (put s (N.to_nat i) b) (N.to_nat j) a.

Definition rc4_setup (key : bytes) : list N :=
  let len := N.of_nat (length key) in
  snd (fold_left
         (fun '(j, s) i =>
            let j' := (j + at_ s i + at_ key (i mod len)) mod 256 in
            (j', swap s i j'))
         (nrange 0 256) (0, nrange 0 256)).

Fixpoint rc4_stream (count : nat) (i j : N) (s : list N) : bytes :=
  match count with
  | O => []
  | S c =>
      let i' := (i + 1) mod 256 in
      let j' := (j + at_ s i') mod 256 in
      let s' := swap s i' j' in
      at_ s' ((at_ s' i' + at_ s' j') mod 256) :: rc4_stream c i' j' s'
  end.

Definition xor_bytes (a b : bytes) : bytes := map (fun '(x, y) => N.lxor x y) (combine a b).

Definition rc4 (key data : bytes) : bytes := xor_bytes data (rc4_stream (List.length data) 0 0 (rc4_setup key)).

(** RFC 1321, appendix A.5. *)
Example md5_empty : md5 [] = [0xd4; 0x1d; 0x8c; 0xd9; 0x8f; 0x00; 0xb2; 0x04; 0xe9; 0x80; 0x09; 0x98; 0xec; 0xf8; 0x42; 0x7e].
Proof. vm_compute. reflexivity. Qed.
Example md5_abc :
  md5 (str "abc"%string) = [0x90; 0x01; 0x50; 0x98; 0x3c; 0xd2; 0x4f; 0xb0; 0xd6; 0x96; 0x3f; 0x7d; 0x28; 0xe1; 0x7f; 0x72].
Proof. vm_compute. reflexivity. Qed.
Example md5_long :
  md5 (str "12345678901234567890123456789012345678901234567890123456789012345678901234567890"%string)
  = [0x57; 0xed; 0xf4; 0xa2; 0x2b; 0xe3; 0xc9; 0x55; 0xac; 0x49; 0xda; 0x2e; 0x21; 0x07; 0xb6; 0x7a].
Proof. vm_compute. reflexivity. Qed.
(** The widely published vector: key "Key", text "Plaintext". *)
Example rc4_vector : rc4 (str "Key"%string) (str "Plaintext"%string) = [0xbb; 0xf3; 0x16; 0xe8; 0xd9; 0x40; 0xaf; 0x0a; 0xd3].
Proof. vm_compute. reflexivity. Qed.

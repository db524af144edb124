(** Model of /repo/src/detail/sha1.cpp (class liblas::detail::SHA1), in a build with
    NDEBUG (the asserts are empty).  Uint32 is a 32-bit unsigned int, int has 32 bits.
    The buffer bytes[64] is not initialised by the constructor: its first contents are
    the parameter [junk].  malloc in getDigest succeeds. *)
From Coq Require Import ZArith List Bool.
Import ListNotations.
From Verif Require Import Outcome Bytes.
Local Open Scope Z_scope.
Local Notation length := List.length (only parsing).

Definition u32 (x : Z) : Z := x mod 2 ^ 32.

(** sha1.cpp:33-37 *)
Definition lrot (x bits : Z) : Z := Z.lor (u32 (Z.shiftl x bits)) (Z.shiftr x (32 - bits)).
(** sha1.cpp:40-47 *)
Definition store_big_endian (num : Z) : list Z :=
  [Z.shiftr num 24 mod 256; Z.shiftr num 16 mod 256; Z.shiftr num 8 mod 256; num mod 256].

(** sha1.hpp:48-53 *)
Record sha1 := mkSha { H0 : Z; H1 : Z; H2 : Z; H3 : Z; H4 : Z; sh_bytes : list Z; unprocessed : nat; sh_size : Z }.
(** sha1.cpp:51-64 *)
Definition sha1_new (junk : list Z) : sha1 :=
  mkSha 0x67452301 0xefcdab89 0x98badcfe 0x10325476 0xc3d2e1f0 junk 0 0.

(** sha1.cpp:89-92: a word of the block.  The shifted bytes are added as ints (in two's
    complement, as every supported compiler shifts them); the sum is converted to Uint32. *)
Definition block_word (bytes : list Z) (t : nat) : Z :=
  let b k := nth (t * 4 + k) bytes 0 in
  u32 (Z.shiftl (b 0%nat) 24 + Z.shiftl (b 1%nat) 16 + Z.shiftl (b 2%nat) 8 + b 3%nat).
(** sha1.cpp:93: the loop from t = 16; [k] turns are left *)
Fixpoint expand (k : nat) (w : list Z) : list Z :=
  match k with
  | O => w
  | S k' =>
      let t := length w in
      let at_ i := nth (t - i) w 0 in
      expand k' (w ++ [lrot (Z.lxor (Z.lxor (Z.lxor (at_ 3%nat) (at_ 8%nat)) (at_ 14%nat)) (at_ 16%nat)) 1])
  end.
(** sha1.cpp:95-120: the turns of the main loop from [t] on, over the rest of W *)
Fixpoint rounds (w : list Z) (t : nat) (a b c d e : Z) : Z * Z * Z * Z * Z :=
  match w with
  | [] => (a, b, c, d, e)
  | wt :: r =>
      let (K, f) :=
        if (t <? 20)%nat then (0x5a827999, Z.lor (Z.land b c) (Z.land (Z.lxor b 0xFFFFFFFF) d))
        else if (t <? 40)%nat then (0x6ed9eba1, Z.lxor (Z.lxor b c) d)
        else if (t <? 60)%nat then (0x8f1bbcdc, Z.lor (Z.lor (Z.land b c) (Z.land b d)) (Z.land c d))
        else (0xca62c1d6, Z.lxor (Z.lxor b c) d) in
      let temp := u32 (u32 (u32 (u32 (lrot a 5 + f) + e) + wt) + K) in
      rounds r (S t) temp a (lrot b 30) c d
  end.
(** sha1.cpp:76-129 *)
Definition process (s : sha1) : sha1 :=
  let w := expand 64 (map (block_word (sh_bytes s)) (seq 0 16)) in
  match rounds w 0 (H0 s) (H1 s) (H2 s) (H3 s) (H4 s) with
  | (a, b, c, d, e) => mkSha (u32 (H0 s + a)) (u32 (H1 s + b)) (u32 (H2 s + c)) (u32 (H3 s + d)) (u32 (H4 s + e)) (sh_bytes s) 0 (sh_size s)
  end.

(** memcpy(bytes + off, data, length data) *)
Definition copy_in (bytes : list Z) (off : nat) (data : list Z) : outcome (list Z) :=
  if (length bytes <? off + length data)%nat then UB UBOutOfBounds
  else Ok (firstn off bytes ++ data ++ skipn (off + length data) bytes).

(** sha1.cpp:139-155: the loop; [fuel] bounds the number of turns *)
Fixpoint add_loop (fuel : nat) (s : sha1) (data : list Z) : outcome sha1 :=
  match data with
  | [] => Ok s
  | _ =>
      match fuel with
      | O => UB UBDiverge
      | S fuel' =>
          let needed := (64 - unprocessed s)%nat in
          let to_copy := if (length data <? needed)%nat then length data else needed in
          let! b := copy_in (sh_bytes s) (unprocessed s) (firstn to_copy data) in
          let s1 := mkSha (H0 s) (H1 s) (H2 s) (H3 s) (H4 s) b (unprocessed s + to_copy) (sh_size s) in
          let s2 := if (unprocessed s1 =? 64)%nat then process s1 else s1 in
          add_loop fuel' s2 (skipn to_copy data)
      end
  end.
(** sha1.cpp:132-156; num is an int, so [data] has fewer than 2^31 bytes in the C++ *)
Definition add_bytes (s : sha1) (data : list Z) : outcome sha1 :=
  add_loop (length data)
    (mkSha (H0 s) (H1 s) (H2 s) (H3 s) (H4 s) (sh_bytes s) (unprocessed s) (u32 (sh_size s + Z.of_nat (length data)))) data.

(** sha1.cpp:159-193: the digest, and the state it leaves.  The footer is an array
    of 64 zeros over which the length is stored. *)
Definition get_digest (s : sha1) : outcome (list Z * sha1) :=
  let bits_l := u32 (Z.shiftl (sh_size s) 3) in
  let bits_h := Z.shiftr (sh_size s) 29 in
  let! s := add_bytes s [128] in
  let! s := (if (56 <? unprocessed s)%nat then add_bytes s (repeat 0 (64 - unprocessed s)) else Ok s) in
  let zeros := (56 - unprocessed s)%nat in
  let! footer := copy_in (repeat 0 64) zeros (store_big_endian bits_h) in
  let! footer := copy_in footer (zeros + 4) (store_big_endian bits_l) in
  let! s := add_bytes s (firstn (zeros + 8) footer) in
  Ok (store_big_endian (H0 s) ++ store_big_endian (H1 s) ++ store_big_endian (H2 s) ++ store_big_endian (H3 s) ++ store_big_endian (H4 s), s).

(** Any number of addBytes calls *)
Fixpoint add_all (s : sha1) (l : list (list Z)) : outcome sha1 :=
  match l with [] => Ok s | d :: r => let! s := add_bytes s d in add_all s r end.

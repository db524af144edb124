(** SHA-1 as FIPS 180-4 defines it, over lists of bytes. *)
From Coq Require Import ZArith List Bool.
Import ListNotations.
From Verif Require Import Outcome Bytes.
Local Open Scope Z_scope.
Local Notation length := List.length (only parsing).

(** 3.2: 32-bit words *)
Definition add32 (x y : Z) : Z := (x + y) mod 2 ^ 32.
Definition rotl (n x : Z) : Z := (x * 2 ^ n) mod 2 ^ 32 + x / 2 ^ (32 - n).
(** 4.1.1: the functions (words have no bits above 31) *)
Definition ch (x y z : Z) : Z := Z.lxor (Z.land x y) (Z.land (Z.lnot x) z).
Definition parity (x y z : Z) : Z := Z.lxor x (Z.lxor y z).
Definition maj (x y z : Z) : Z := Z.lxor (Z.land x y) (Z.lxor (Z.land x z) (Z.land y z)).
Definition f_t (t : nat) : Z -> Z -> Z -> Z :=
  if (t <=? 19)%nat then ch else if (t <=? 39)%nat then parity else if (t <=? 59)%nat then maj else parity.
(** 4.2.1 *)
Definition K_t (t : nat) : Z :=
  if (t <=? 19)%nat then 0x5a827999 else if (t <=? 39)%nat then 0x6ed9eba1 else if (t <=? 59)%nat then 0x8f1bbcdc else 0xca62c1d6.

(** big-endian number *)
Definition big_endian (l : list Z) : Z := fold_left (fun n b => 256 * n + b) l 0.
(** [n] bytes of a number, most significant first *)
Definition be_bytes (n : nat) (x : Z) : list Z := map (fun i => x / 256 ^ Z.of_nat (n - 1 - i) mod 256) (seq 0 n).

(** 5.1.1: a byte 0x80, the fewest zero bytes that make the length (with the eight
    bytes of the bit length) a multiple of 64, the bit length *)
Definition pad_zeros (m : list Z) : nat := Z.to_nat ((55 - Z.of_nat (length m)) mod 64).
Definition padded_with (bits : Z) (m : list Z) : list Z := m ++ [128] ++ repeat 0 (pad_zeros m) ++ be_bytes 8 bits.
Definition padded (m : list Z) : list Z := padded_with (8 * Z.of_nat (length m)) m.

(** 6.1.2: the message schedule of a block *)
Definition word (block : list Z) (t : nat) : Z := big_endian (firstn 4 (skipn (4 * t) block)).
Fixpoint schedule_upto (k : nat) (block : list Z) (t : nat) : Z :=
  match k with
  | O => 0
  | S k' => if (t <? 16)%nat then word block t
            else let w i := schedule_upto k' block (t - i) in rotl 1 (Z.lxor (w 3%nat) (Z.lxor (w 8%nat) (Z.lxor (w 14%nat) (w 16%nat))))
  end.
Definition schedule (block : list Z) (t : nat) : Z := schedule_upto (S t) block t.

Definition hash := (Z * Z * Z * Z * Z)%type.
Definition initial : hash := (0x67452301, 0xefcdab89, 0x98badcfe, 0x10325476, 0xc3d2e1f0).
Definition round (block : list Z) (v : hash) (t : nat) : hash :=
  match v with
  | (a, b, c, d, e) => (add32 (rotl 5 a) (add32 (f_t t b c d) (add32 e (add32 (K_t t) (schedule block t)))), a, rotl 30 b, c, d)
  end.
Definition compress (h : hash) (block : list Z) : hash :=
  match h, fold_left (round block) (seq 0 80) h with
  | (h0, h1, h2, h3, h4), (a, b, c, d, e) => (add32 a h0, add32 b h1, add32 c h2, add32 d h3, add32 e h4)
  end.
(** the 64-byte blocks of a list *)
Definition blocks (m : list Z) : list (list Z) := map (fun i => firstn 64 (skipn (64 * i) m)) (seq 0 (length m / 64)).
Definition hash_blocks (m : list Z) : hash := fold_left compress (blocks m) initial.
Definition digest_of (h : hash) : list Z :=
  match h with (a, b, c, d, e) => be_bytes 4 a ++ be_bytes 4 b ++ be_bytes 4 c ++ be_bytes 4 d ++ be_bytes 4 e end.
(** the SHA-1 digest of a message *)
Definition SHA1_of (m : list Z) : list Z := digest_of (hash_blocks (padded m)).

(** IEEE-754 binary64 arithmetic, as performed by the modelled code on its
    target (round to nearest even, no extended precision, no fused operations).
    The arithmetic itself is Flocq's. *)
From Coq Require Import ZArith Bool.
From Flocq Require Import Core BinarySingleNaN Binary Bits.
From Verif Require Import Outcome Bytes.
Local Open Scope Z_scope.

Definition f64 := binary64.

Definition f64_bits (x : f64) : Z := bits_of_b64 x.
Definition f64_of_bits (z : Z) : f64 := b64_of_bits z.

Definition f64_add (x y : f64) : f64 := b64_plus mode_NE x y.
Definition f64_sub (x y : f64) : f64 := b64_minus mode_NE x y.
Definition f64_mul (x y : f64) : f64 := b64_mult mode_NE x y.
Definition f64_div (x y : f64) : f64 := b64_div mode_NE x y.
Definition f64_opp (x : f64) : f64 := b64_opp x.

(** C++ [<], [<=], [>], [>=], [==] on doubles: false when either is a NaN
    ([!=] is the negation of [==]). *)
Definition f64_lt (x y : f64) : bool :=
  match b64_compare x y with Some Lt => true | _ => false end.
Definition f64_le (x y : f64) : bool :=
  match b64_compare x y with Some Lt | Some Eq => true | _ => false end.
Definition f64_gt (x y : f64) : bool := f64_lt y x.
Definition f64_ge (x y : f64) : bool := f64_le y x.
Definition f64_eq (x y : f64) : bool :=
  match b64_compare x y with Some Eq => true | _ => false end.

Lemma prec53_gt_0 : Prec_gt_0 53. Proof. reflexivity. Qed.
Lemma prec53_lt_emax : Prec_lt_emax 53 1024. Proof. reflexivity. Qed.

(** Conversion of an integer to double, and of [m * 2^e]. *)
Definition f64_of_me (m e : Z) : f64 :=
  binary_normalize 53 1024 prec53_gt_0 prec53_lt_emax mode_NE m e false.
Definition f64_of_Z (z : Z) : f64 := f64_of_me z 0.

Definition f64_zero : f64 := f64_of_Z 0.
Definition f64_one : f64 := f64_of_Z 1.
Definition f64_half : f64 := f64_of_me 1 (-1).
(** std::numeric_limits<double>::epsilon() *)
Definition f64_epsilon : f64 := f64_of_me 1 (-52).

(** std::floor / std::ceil *)
Definition f64_floor (x : f64) : f64 := Bnearbyint 53 1024 prec53_lt_emax unop_nan_pl64 mode_DN x.
Definition f64_ceil (x : f64) : f64 := Bnearbyint 53 1024 prec53_lt_emax unop_nan_pl64 mode_UP x.

(** static_cast of a double to an integer type: truncation; undefined when the
    truncated value is not representable (C++11 [conv.fpint]). *)
Definition f64_to_int (ok : Z -> bool) (x : f64) : outcome Z :=
  if is_finite 53 1024 x && ok (Btrunc 53 1024 x)
  then Ok (Btrunc 53 1024 x) else UB UBFloatToInt.

Definition f64_to_int32 (x : f64) : outcome Z := f64_to_int (in_signedb 32) x.
Definition f64_to_uint32 (x : f64) : outcome Z := f64_to_int (in_unsignedb 32) x.

(** /repo/include/liblas/detail/private_utility.hpp:68-70 *)
Definition sround (r : f64) : f64 :=
  if f64_gt r f64_zero then f64_floor (f64_add r f64_half) else f64_ceil (f64_sub r f64_half).

(** /repo/include/liblas/detail/private_utility.hpp:225-237 [compare_distance] *)
Definition compare_distance (actual expected : f64) : bool :=
  let diff := f64_sub actual expected in
  f64_le diff f64_epsilon && f64_ge diff (f64_opp f64_epsilon).

Lemma f64_bits_of_bits x : 0 <= x < 2 ^ 64 -> f64_bits (f64_of_bits x) = x.
Proof.
  intros H. unfold f64_bits, f64_of_bits, bits_of_b64, b64_of_bits.
  apply bits_of_binary_float_of_bits. exact H.
Qed.

Lemma f64_of_bits_bits x : f64_of_bits (f64_bits x) = x.
Proof. unfold f64_bits, f64_of_bits, bits_of_b64, b64_of_bits.
  exact (binary_float_of_bits_of_binary_float 52 11 eq_refl eq_refl eq_refl x). Qed.

Lemma f64_bits_range x : 0 <= f64_bits x < 2 ^ 64.
Proof. unfold f64_bits, bits_of_b64. exact (bits_of_binary_float_range 52 11 eq_refl eq_refl x). Qed.

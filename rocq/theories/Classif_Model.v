(** Model of Classification (/repo/src/classification.cpp,
    /repo/include/liblas/classification.hpp) and Color
    (/repo/src/color.cpp, /repo/include/liblas/color.hpp). *)
From Coq Require Import ZArith List Bool.
Import ListNotations.
From Verif Require Import Outcome Bytes.
Local Open Scope Z_scope.

(** A [Classification] is its [std::bitset<8> m_flags], represented by the
    corresponding integer in [0,256) (classification.hpp:70, 220). *)

(** classification.cpp:54-89, 95: the lookup table g_class_names has 32 names. *)
Definition class_table_size : Z := 32.

(** classification.hpp:83-89 bit positions *)
Definition eSyntheticBit : Z := 5.
Definition eKeyPointBit : Z := 6.
Definition eWithheldBit : Z := 7.

(** classification.hpp:104-106 [explicit Classification(uint8_t)]. *)
Definition class_of_byte (b : Z) : Z := b mod 256.

(** classification.cpp:105-117 *)
Definition class_get (flags : Z) : Z :=
  Z.land flags (class_table_size - 1) mod 256.

(** classification.cpp:132-141 *)
Definition check_class_index (index : Z) : bool :=
  negb ((class_table_size - 1 <? index) || negb (index <=? 255)).

(** classification.cpp:119-130 *)
Definition class_set (flags index : Z) : outcome Z :=
  if check_class_index index
  then let mask := 31 in
       let binval := index mod 256 in
       Ok (Z.lor (Z.land flags (Z.land (Z.lnot mask) 255)) (Z.land mask binval))
  else Throw EOutOfRange.

(** [m_flags[bit] = flag] *)
Definition bit_set (flags bit : Z) (v : bool) : Z :=
  if v then Z.setbit flags bit else Z.clearbit flags bit.

(** classification.hpp:172-207 *)
Definition class_set_synthetic (flags : Z) (v : bool) : Z := bit_set flags eSyntheticBit v.
Definition class_is_synthetic (flags : Z) : bool := Z.testbit flags eSyntheticBit.
Definition class_set_keypoint (flags : Z) (v : bool) : Z := bit_set flags eKeyPointBit v.
Definition class_is_keypoint (flags : Z) : bool := Z.testbit flags eKeyPointBit.
Definition class_set_withheld (flags : Z) (v : bool) : Z := bit_set flags eWithheldBit v.
Definition class_is_withheld (flags : Z) : bool := Z.testbit flags eWithheldBit.

(** classification.hpp:116-122: the bitset starts at 0. *)
Definition class_make (cls : Z) (s k w : bool) : outcome Z :=
  let! f := class_set 0 cls in
  Ok (class_set_withheld (class_set_keypoint (class_set_synthetic f s) k) w).

(** classification.cpp:97-103: name lookup; only the failure mode is modelled. *)
Definition class_name_index (flags : Z) : outcome Z :=
  let i := class_get flags in
  if check_class_index i then Ok i else Throw EOutOfRange.

(** Colour: three 16-bit channels (color.hpp:113-115). *)
Record color := mkColor { c_red : Z; c_green : Z; c_blue : Z }.

(** color.cpp:51-54 *)
Definition color_black : color := mkColor 0 0 0.

(** color.cpp:56-66, arguments are uint32_t *)
Definition color_make (r g b : Z) : outcome color :=
  if (65535 <? r) || (65535 <? g) || (65535 <? b) then Throw EInvalidArgument
  else Ok (mkColor (r mod 2 ^ 16) (g mod 2 ^ 16) (b mod 2 ^ 16)).

(** color.hpp:165-168 *)
Definition color_eqb (a b : color) : bool :=
  (c_red a =? c_red b) && (c_green a =? c_green b) && (c_blue a =? c_blue b).

Definition color_ok (c : color) : Prop :=
  in_unsigned 16 (c_red c) /\ in_unsigned 16 (c_green c) /\ in_unsigned 16 (c_blue c).

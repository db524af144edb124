(** Model of /repo/include/liblas/detail/binary.hpp (whole file): the
    load/store loops used for every integer and double of a point record. *)
From Coq Require Import ZArith List Bool.
Import ListNotations.
From Verif Require Import Outcome Bytes.
Local Open Scope Z_scope.

(** binary.hpp:44-45 the two tags; binary.hpp:47-51 [native_endian_tag] is a
    compile-time constant of the host, here a parameter [native]. *)
Inductive endian := LittleE | BigE.
Definition endian_eqb (a b : endian) : bool :=
  match a, b with LittleE, LittleE | BigE, BigE => true | _, _ => false end.

(** Conversion of a mathematical integer to the C++ type [T] of width [w]
    (two's complement wrap; conversions and shifts of negative values are taken
    with their gcc meaning). *)
Definition conv_int (sign : bool) (w z : Z) : Z :=
  if sign then to_signed w z else z mod 2 ^ w.

(** [*bytes] for an iterator at index [i] of the buffer [l]. *)
Definition deref (l : list Z) (i : Z) : outcome Z :=
  if (0 <=? i) && (i <? Z.of_nat (length l))
  then match nth_error l (Z.to_nat i) with Some b => Ok b | None => UB UBOutOfBounds end
  else UB UBOutOfBounds.

(** [*bytes = v] *)
Definition assign (l : list Z) (i : Z) (v : Z) : outcome (list Z) :=
  if (0 <=? i) && (i <? Z.of_nat (length l))
  then Ok (firstn (Z.to_nat i) l ++ [v] ++ skipn (S (Z.to_nat i)) l)
  else UB UBOutOfBounds.

(** binary.hpp:60-66 (general step), 91-95 (N=1, unsigned), 121-125 (N=1,
    signed: the last byte is read as [signed char]).  [n] is [N-1]. *)
Fixpoint load_forward (sign : bool) (w : Z) (n : nat) (l : list Z) (i : Z) : outcome Z :=
  let! v := deref l i in
  match n with
  | O => Ok (conv_int sign w (if sign then to_signed 8 v else v))
  | S m =>
      let! r := load_forward sign w m l (i + 1) in
      Ok (conv_int sign w (Z.lor v (Z.shiftl r 8)))
  end.

(** binary.hpp:68-74, 97-101, 127-131. *)
Fixpoint load_backward (sign : bool) (w : Z) (n : nat) (l : list Z) (i : Z) : outcome Z :=
  let! v := deref l (i - 1) in
  match n with
  | O => Ok (conv_int sign w (if sign then to_signed 8 v else v))
  | S m =>
      let! r := load_backward sign w m l (i - 1) in
      Ok (conv_int sign w (Z.lor v (Z.shiftl r 8)))
  end.

(** binary.hpp:76-81, 103-108, 133-137: [static_cast<char>(value)] stores the
    low byte; the rest of the value is shifted down arithmetically. *)
Fixpoint store_forward (n : nat) (l : list Z) (i : Z) (v : Z) : outcome (list Z) :=
  let! l1 := assign l i (v mod 256) in
  match n with
  | O => Ok l1
  | S m => store_forward m l1 (i + 1) (Z.shiftr v 8)
  end.

(** binary.hpp:83-88, 110-114, 139-143. *)
Fixpoint store_backward (n : nat) (l : list Z) (i : Z) (v : Z) : outcome (list Z) :=
  let! l1 := assign l (i - 1) (v mod 256) in
  match n with
  | O => Ok l1
  | S m => store_backward m l1 (i - 1) (Z.shiftr v 8)
  end.

(** binary.hpp:150-161 [load_dispatch]: same tag -> forward, different tags ->
    advance by N and go backward.  [n] is the byte count N >= 1. *)
Definition load_dispatch (native tag : endian) (sign : bool) (n : nat) (l : list Z) (i : Z) : outcome Z :=
  let w := 8 * Z.of_nat n in
  if endian_eqb native tag
  then load_forward sign w (n - 1) l i
  else load_backward sign w (n - 1) l (i + Z.of_nat n).

(** binary.hpp:163-174 [store_dispatch]. *)
Definition store_dispatch (native tag : endian) (n : nat) (l : list Z) (i : Z) (v : Z) : outcome (list Z) :=
  if endian_eqb native tag
  then store_forward (n - 1) l i v
  else store_backward (n - 1) l (i + Z.of_nat n) v.

(** binary.hpp:198-220 [endian_value<T>::load/store]. *)
Definition endian_load := load_dispatch.
Definition endian_store := store_dispatch.
(** binary.hpp:222-252 [endian_value<double,8>]: the 64-bit pattern goes through
    [uint64_t] by memcpy; the double is represented by its bit pattern here. *)
Definition endian_load_double (native tag : endian) (l : list Z) (i : Z) : outcome Z :=
  load_dispatch native tag false 8 l i.
Definition endian_store_double (native tag : endian) (l : list Z) (i : Z) (bits : Z) : outcome (list Z) :=
  store_dispatch native tag 8 l i bits.

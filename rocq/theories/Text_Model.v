(** What becomes of a double that is put into a property tree and got from it
    again.  boost's tree keeps text: /repo/include/liblas/external/property_tree/
    stream_translator.hpp:91-106 (insert: a stream with precision digits10 + 1,
    which is 16 decimal digits for double; extract: operator>>), 172-215 (the
    translator: a failed extraction gives no value) and
    detail/ptree_implementation.hpp:634-648 (get_value then throws
    ptree_bad_data, a std::runtime_error, exceptions.hpp:27-52).
    The library below the streams is taken to convert correctly rounded both
    ways (glibc: nearest, ties to even).  "inf" and "nan" are written but not
    read back by operator>>. *)
From Coq Require Import ZArith Reals Bool.
From Flocq Require Import Core BinarySingleNaN Binary Bits.
From Verif Require Import Outcome Bytes Float64.
Local Open Scope Z_scope.

Definition radix10 : radix := Build_radix 10 eq_refl.
(** nearest number with 16 significant decimal digits *)
Definition dec16 (x : R) : R := round radix10 (FLX_exp 16) ZnearestE x.
(** the double nearest to a real number (of magnitude below 2^1024 after rounding) *)
Definition f64_of_R (v : R) : f64 :=
  f64_of_me (Ztrunc (scaled_mantissa radix2 (FLT_exp (-1074) 53) v)) (cexp radix2 (FLT_exp (-1074) 53) v).

(** stream_translator.hpp:91-106 *)
Definition text16 (x : f64) : outcome f64 :=
  match x with
  | B754_zero _ _ _ => Ok x
  | B754_finite _ _ _ _ _ _ =>
      let v := round radix2 (FLT_exp (-1074) 53) ZnearestE (dec16 (B2R 53 1024 x)) in
      if Rlt_bool (Rabs v) (bpow radix2 1024) then Ok (f64_of_R v) else Throw ERuntime
  | _ => Throw ERuntime
  end.

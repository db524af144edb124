(** Specification vocabulary for building a spatial index and querying it: all in
    terms of the bounds of the file, the coordinates and the query box. *)
From Coq Require Import ZArith Reals List Bool.
From Flocq Require Import Core.
Import ListNotations.
From Verif Require Import Outcome Float64 Float64_Proofs Bounds_Model Index_Out Index_Query.
Local Open Scope R_scope.

(** an interval that can be divided into cells: finite, of moderate size (between
    2^-500 and 2^501 long) *)
Record wide (r : range) : Prop := {
  w_min : f64_fin (rg_min r) = true; w_max : f64_fin (rg_max r) = true;
  w_lt : f64_R (rg_min r) < f64_R (rg_max r);
  w_big : Rabs (f64_R (rg_min r)) <= bpow radix2 500 /\ Rabs (f64_R (rg_max r)) <= bpow radix2 500;
  w_gap : bpow radix2 (-500) <= f64_R (rg_max r) - f64_R (rg_min r) }.
(** one that may also be a single value *)
Record flat (r : range) : Prop := {
  fl_min : f64_fin (rg_min r) = true; fl_max : f64_fin (rg_max r) = true;
  fl_le : f64_R (rg_min r) <= f64_R (rg_max r);
  fl_big : Rabs (f64_R (rg_min r)) <= bpow radix2 500 /\ Rabs (f64_R (rg_max r)) <= bpow radix2 500 }.

(** a coordinate in an interval *)
Definition within (r : range) (v : f64) : Prop := f64_fin v = true /\ f64_R (rg_min r) <= f64_R v <= f64_R (rg_max r).
Definition inside (x y z : range) (p : coords) : Prop := within x (c_x p) /\ within y (c_y p) /\ within z (c_z p).

(** what rounding may cost: 2^-48 times the magnitude of the bounds of the file *)
Definition margin (r : range) : R := bpow radix2 (-48) * (Rabs (f64_R (rg_min r)) + Rabs (f64_R (rg_max r))).

(** the query interval [b] is proper and has a point in common with the interval
    [r] of the file *)
Definition touches (b r : range) : Prop :=
  f64_fin (rg_min b) = true /\ f64_fin (rg_max b) = true /\ f64_R (rg_min b) <= f64_R (rg_max b) /\
  f64_R (rg_min b) <= f64_R (rg_max r) /\ f64_R (rg_min r) <= f64_R (rg_max b).
(** a coordinate that lies in the query interval by the margin; at an end where
    the query reaches the end of the file no margin is needed *)
Definition surely_in (b r : range) (v : f64) : Prop :=
  (f64_R (rg_min b) + margin r <= f64_R v \/ f64_R (rg_min b) <= f64_R (rg_min r)) /\
  (f64_R v <= f64_R (rg_max b) - margin r \/ f64_R (rg_max r) <= f64_R (rg_max b)).
(** a coordinate that lies in it or outside by at most the margin *)
Definition maybe_in (b r : range) (v : f64) : Prop :=
  f64_R (rg_min b) - margin r <= f64_R v <= f64_R (rg_max b) + margin r.
(** the common part of the two intervals has a length that counts (2^-51); if it
    has not, the index does not filter on this axis *)
Definition filters (b r : range) : Prop :=
  bpow radix2 (-51) <= Rmin (f64_R (rg_max b)) (f64_R (rg_max r)) - Rmax (f64_R (rg_min b)) (f64_R (rg_min r)).

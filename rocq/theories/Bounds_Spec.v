(** Specification vocabulary for ranges and bounds: sets of real numbers. *)
From Coq Require Import ZArith Reals List Bool.
Import ListNotations.
From Verif Require Import Outcome Float64 Float64_Proofs Bounds_Model.
Local Open Scope R_scope.

(** Both end points are numbers (no infinity, no NaN). *)
Definition range_fin (r : range) : Prop := f64_fin (rg_min r) = true /\ f64_fin (rg_max r) = true.
(** Minimum not above maximum. *)
Definition range_valid (r : range) : Prop := f64_R (rg_min r) <= f64_R (rg_max r).
(** The closed interval a range stands for. *)
Definition rset (r : range) (x : R) : Prop := f64_R (rg_min r) <= x <= f64_R (rg_max r).

(** The box a Bounds stands for: one coordinate per dimension. *)
Definition boxset (b : bounds) (xs : list R) : Prop := Forall2 rset b xs.
Definition box_fin (b : bounds) : Prop := Forall range_fin b.
Definition box_valid (b : bounds) : Prop := Forall range_valid b.
(** Strictly inside. *)
Definition rinterior (r : range) (x : R) : Prop := f64_R (rg_min r) < x < f64_R (rg_max r).

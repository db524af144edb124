(** Vocabulary for transforms. *)
From Coq Require Import ZArith List.
Import ListNotations.
From Verif Require Import Outcome Header_Model Point_Model Point_Spec Point_Api.
Local Open Scope Z_scope.
Local Notation length := List.length (only parsing).

(** [b]: the angle [a] times 1.944445, to the nearest integer, kept in -128..127 *)
Definition optech_angle (a b : Z) : Prop :=
  exists m, 2 * Z.abs (1000000 * m - 1944445 * a) < 1000000 /\ b = Z.max (-128) (Z.min 127 m).

(** Record [d'] is [d] with another scan angle. *)
Definition other_angle (h : header) (d d' : list Z) : Prop :=
  length d' = length d /\ (forall i, i <> 16%nat -> nth_error d' i = nth_error d i) /\
  exists a b, api_get AScanAngleRank (mkPoint d h) = Ok a /\ api_get AScanAngleRank (mkPoint d' h) = Ok b /\ optech_angle a b.

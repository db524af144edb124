(** las2las --min-offset: what the new file should be. *)
From Coq Require Import ZArith Reals List Bool.
From Flocq Require Import Core.
Import ListNotations.
From Verif Require Import Outcome Bytes Float64 Float64_Proofs Schema_Model Header_Model Point_Model Stream_Model Stream_Proofs Reader_Proofs Point_Spec Point_Api Coord_Api IO_Spec Reader_Spec Reader_Api Reader_Vlrs Reader_Open Rewrite_Proofs Prop_Rewrite Text_Model
  Summary_Model Summary_Spec Las2las_Spec Hdropt_Spec Cols_Spec Txt_Spec Lasinfo_Spec.
Local Open Scope Z_scope.
Local Notation length := List.length (only parsing).

(** The offsets [o]: on each axis the smallest coordinate, with the 16 digits the
    tool keeps of it. *)
Definition least_offset (F : list Z) (ds : list (list Z)) (o : f64 * f64 * f64) : Prop :=
  forall ax, exists m, least_f (map (coordinate F ax) ds) m /\ text16 m = Ok (axis_of o ax).
Definition offset_only (o : f64 * f64 * f64) : change := mkChange (Some o) None None None None None None None.
(** Old and new offsets are the same, or differ visibly on some axis. *)
Definition clear_move (F : list Z) (o : f64 * f64 * f64) : Prop :=
  (forall ax, axis_of o ax = file_offset F ax) \/
  exists ax, (bpow radix2 (-51) <= Rabs (f64_R (axis_of o ax) - f64_R (file_offset F ax)))%R.
(** The coordinates can be stored relative to the smallest one. *)
Definition roomy (F : list Z) (ds : list (list Z)) : Prop :=
  forall ax, (Rabs (f64_R (file_offset F ax)) <= 281474976710656 * f64_R (file_scale F ax))%R /\
    forall d d', In d ds -> In d' ds -> raw_value (raw_attr ax) d - raw_value (raw_attr ax) d' <= 2 ^ 31 - 1024.
(** A filter that does not look at the header of a point beyond what the file says. *)
Definition judges_alike (F : list Z) (keep : option (point -> bool)) : Prop :=
  match keep with
  | None => True
  | Some k => forall d h1 h2, shows_file F h1 -> shows_file F h2 -> k (mkPoint d h1) = k (mkPoint d h2)
  end.

Definition all_zero (d : list Z) : Prop := d = repeat 0 (length d).
(** Record [d] of [F] became record [d'] of [G]: the same attributes, and, unless the
    record is all zeros, the same place within half a step. *)
Definition moved (F G d d' : list Z) : Prop :=
  length d' = length d /\ (forall a, is_raw a = false -> field (fmt F) a d' = field (fmt F) a d) /\
  (all_zero d -> d' = d) /\
  (~ all_zero d -> forall ax, (Rabs (f64_R (coordinate G ax d') - f64_R (coordinate F ax d)) <= quantum (file_scale F ax) (file_offset G ax))%R).

(** bounds (bit patterns) of the points with these records, with 16 digits *)
Definition bounds_at (F : list Z) (ds : list (list Z)) (mx mn : Z * Z * Z) : Prop :=
  forall ax, exists lo lo' hi hi', least_f (map (coordinate F ax) ds) lo /\ greatest_f (map (coordinate F ax) ds) hi /\
    text16 lo = Ok lo' /\ text16 hi = Ok hi' /\ on_axis ax mn = f64_bits lo' /\ on_axis ax mx = f64_bits hi'.
(** The new file: the records moved, in their order; the VLRs, the project id and the
    header values but for the offsets, the number of points and what depends on it. *)
Definition offset_edited (F : list Z) (o : f64 * f64 * f64) (ds : list (list Z)) (G : list Z) : Prop :=
  standard G /\ Forall2 (moved F G) ds (records_from G 0) /\ (forall ax, file_offset G ax = axis_of o ax) /\
  file_vlrs G = map vlr_norm (geo_last (file_vlrs F)) /\ slice G 8 16 = slice F 8 16 /\
  exists mx mn, bounds_at F ds mx mn /\
    pub_of_file G = lossy (with_returns (with_bounds (header_after F (offset_only o) (Z.of_nat (length ds))) mx mn) (five_returns (map (field (fmt F) AReturnNumber) ds))).

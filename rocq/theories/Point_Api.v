(** Statement vocabulary for point theorems: the public accessors of Point
    (/repo/include/liblas/point.hpp) indexed by attribute, and the reachable
    points they are specified on.  No logic of its own. *)
From Coq Require Import ZArith List Bool.
Import ListNotations.
From Verif Require Import Outcome Bytes Float64 Classif_Model Header_Model Point_Model Point_Spec.
Local Open Scope Z_scope.

(** The record read as one little-endian integer. *)
Definition rec_int (p : point) : Z := le_dec (p_data p).

(** ** the API as attribute access *)
Definition api_get (a : attr) (p : point) : outcome Z :=
  match a with
  | ARawX => get_raw_x p | ARawY => get_raw_y p | ARawZ => get_raw_z p
  | AIntensity => get_intensity p | AScanFlags => get_flags p
  | AReturnNumber => get_return_number p | ANumberOfReturns => get_number_of_returns p
  | AScanDirection => get_scan_direction p | AFlightLineEdge => get_flight_line_edge p
  | AClassification => get_classification p | AScanAngleRank => get_scan_angle p
  | AUserData => get_user_data p | APointSourceId => get_point_source_id p
  | ATime => omap f64_bits (get_time p)
  | ARed => omap c_red (get_color p) | AGreen => omap c_green (get_color p)
  | ABlue => omap c_blue (get_color p)
  end.

(** Single-attribute setters; colour is set as a whole and is treated
    separately. *)
Definition api_set (a : attr) (v : Z) (p : point) : outcome point :=
  match a with
  | ARawX => set_raw_x p v | ARawY => set_raw_y p v | ARawZ => set_raw_z p v
  | AIntensity => set_intensity p v | AScanFlags => set_flags p v
  | AReturnNumber => set_return_number p v | ANumberOfReturns => set_number_of_returns p v
  | AScanDirection => set_scan_direction p v | AFlightLineEdge => set_flight_line_edge p v
  | AClassification => set_classification p v | AScanAngleRank => set_scan_angle p v
  | AUserData => set_user_data p v | APointSourceId => set_point_source_id p v
  | ATime => set_time p (f64_of_bits v)
  | ARed | AGreen | ABlue => Throw EInvalidArgument
  end.

(** A point of a supported format whose buffer holds at least the format's
    fields (custom bytes may follow). *)
Definition point_wf (p : point) : Prop :=
  0 <= p_format p <= 3 /\ bytes_ok (p_data p) /\
  format_bytes (p_format p) <= Z.of_nat (length (p_data p)).


(** Attributes that share bits: an attribute with itself, the scan flag byte with
    its four sub-fields.  Checked against [attr_range] by [attr_ranges_disjoint]. *)
Definition overlapping (a b : attr) : bool :=
  match a, b with
  | AScanFlags, (AScanFlags | AReturnNumber | ANumberOfReturns | AScanDirection | AFlightLineEdge)
  | (AReturnNumber | ANumberOfReturns | AScanDirection | AFlightLineEdge), AScanFlags => true
  | ARawX, ARawX | ARawY, ARawY | ARawZ, ARawZ | AIntensity, AIntensity
  | AReturnNumber, AReturnNumber | ANumberOfReturns, ANumberOfReturns
  | AScanDirection, AScanDirection | AFlightLineEdge, AFlightLineEdge
  | AClassification, AClassification | AScanAngleRank, AScanAngleRank
  | AUserData, AUserData | APointSourceId, APointSourceId | ATime, ATime
  | ARed, ARed | AGreen, AGreen | ABlue, ABlue => true
  | _, _ => false
  end.


Definition pop_run (o : pop) (p : point) : outcome point :=
  match o with
  | PSet a v => api_set a v p
  | PColor r g b => set_color p (mkColor r g b)
  end.
Fixpoint pops_run (os : list pop) (p : point) : outcome point :=
  match os with [] => Ok p | o :: os => let! p1 := pop_run o p in pops_run os p1 end.

(** Statement vocabulary for world coordinates: the accessors of Point by axis,
    the scale and offset of a header by axis, and the conditions under which the
    header describes its own records. *)
From Coq Require Import ZArith Reals List Bool String.
From Flocq Require Import Core.
Import ListNotations.
From Verif Require Import Outcome Bytes Float64 Float64_Proofs Header_Model Point_Model Point_Spec Point_Api.

Inductive axis := AxX | AxY | AxZ.
Definition get_coord (ax : axis) (p : point) : outcome f64 :=
  match ax with AxX => get_x p | AxY => get_y p | AxZ => get_z p end.
Definition set_coord (ax : axis) (p : point) (v : f64) : outcome point :=
  match ax with AxX => set_x p v | AxY => set_y p v | AxZ => set_z p v end.
Definition raw_attr (ax : axis) : attr := match ax with AxX => ARawX | AxY => ARawY | AxZ => ARawZ end.
Definition is_raw (a : attr) : bool := match a with ARawX | ARawY | ARawZ => true | _ => false end.
Definition axis_of {A} (t : A * A * A) (ax : axis) : A :=
  match ax with AxX => fst (fst t) | AxY => snd (fst t) | AxZ => snd t end.
Definition scale_of (ax : axis) (h : header) : f64 := axis_of (h_scale h) ax.
Definition offset_of (ax : axis) (h : header) : f64 := axis_of (h_offset h) ax.

(** Scales and offsets in the range of the error analysis. *)
Definition scale_ok (s : f64) : Prop :=
  f64_fin s = true /\ (bpow radix2 (-900) <= Rabs (f64_R s) <= bpow radix2 900)%R.
Definition offset_ok (o : f64) : Prop := f64_fin o = true /\ (Rabs (f64_R o) <= bpow radix2 950)%R.
(** Half of the spacing of doubles around 1. *)
Definition u64 : R := (/ 9007199254740992)%R.

(** What storing a coordinate with scale [s] and offset [o] may cost: half a
    scale step and 1/131072 of one, plus one rounding of a number of the size of
    the offset. *)
Definition quantum (s o : f64) : R := (Rabs (f64_R s) * (/ 2 + / 131072) + u64 * Rabs (f64_R o))%R.

(** A coordinate that a header can store: strictly inside the 32-bit range. *)
Definition storable (s o v : f64) : Prop :=
  f64_fin v = true /\ (Rabs (f64_R v - f64_R o) <= 2147483647 * Rabs (f64_R s))%R.

(** The header's schema has the dimensions of its format and room for them. *)
Definition layout_ok (h : header) : Prop :=
  (0 <= get_format h <= 3)%Z /\ (format_bytes (get_format h) <= get_record_length h)%Z /\
  (has_dim h "Time" = true <-> attr_range (get_format h) ATime <> None) /\
  (has_dim h "Red" = true <-> attr_range (get_format h) ARed <> None).

(** What attribute [a] of [p] is expected to be after a move to another layout
    that has it: the value in [p], or 0 if [p] has no such attribute. *)
Definition kept (p : point) (a : attr) : outcome Z :=
  match attr_range (p_format p) a with Some _ => api_get a p | None => Ok 0%Z end.

(** A header that can store coordinates without loss of the raw values (C05). *)
Definition target_ok (h : header) : Prop :=
  forall ax, scale_ok (scale_of ax h) /\ f64_fin (offset_of ax h) = true /\
    (Rabs (f64_R (offset_of ax h)) <= 1125899906842624 * Rabs (f64_R (scale_of ax h)))%R.
(** The world coordinates of [p] fit the header [h]. *)
Definition coords_fit (p : point) (h : header) : Prop :=
  forall ax x, get_coord ax p = Ok x -> storable (scale_of ax h) (offset_of ax h) x.

(** Both headers scale every axis alike. *)
Definition same_scaling (h1 h2 : header) : Prop :=
  forall ax, scale_of ax h1 = scale_of ax h2 /\ offset_of ax h1 = offset_of ax h2.
(** Some scale or offset differs by at least 2^-51. *)
Definition scaling_apart (h1 h2 : header) : Prop :=
  exists ax, (bpow radix2 (-51) <= Rabs (f64_R (scale_of ax h1) - f64_R (scale_of ax h2)))%R \/
             (bpow radix2 (-51) <= Rabs (f64_R (offset_of ax h1) - f64_R (offset_of ax h2)))%R.

(** Statement vocabulary for C67: TerraSolid .bin files and the LAS records they
    stand for, by byte offsets, independent of the model of ts2las. *)
From Coq Require Import ZArith List Bool String.
Import ListNotations.
From Verif Require Import Outcome Bytes Float64 CStr Stream_Proofs IO_Spec.
Local Open Scope Z_scope.
Local Notation length := List.length (only parsing).

(** The header block: 56 bytes (size, version, 970401, "CXYZ", number of points,
    units per metre, origin x y z as doubles, time flag, colour flag). *)
Definition bin_version (B : list Z) : Z := u_at B 4 4.
Definition bin_count (B : list Z) : Z := u_at B 16 4.
Definition bin_units (B : list Z) : Z := to_signed 32 (u_at B 20 4).
Definition bin_origin (B : list Z) (axis : nat) : f64 := f64_of_bits (u_at B (24 + 8 * axis) 8).
Definition bin_has_time (B : list Z) : bool := negb (u_at B 48 4 =? 0).
Definition bin_has_color (B : list Z) : bool := negb (u_at B 52 4 =? 0).
(** The long records (version 20020715) have 20 bytes, the others 16; four bytes
    each of time and colour may follow. *)
Definition bin_long (B : list Z) : bool := bin_version B =? 20020715.
Definition bin_core (B : list Z) : nat := if bin_long B then 20 else 16.
Definition bin_record (B : list Z) : nat := bin_core B + (if bin_has_time B then 4 else 0) + (if bin_has_color B then 4 else 0).

(** A .bin file of a known version with a point count that is not negative. *)
Definition bin_file (B : list Z) : Prop :=
  bytes_ok B /\ (56 <= length B)%nat /\ u_at B 8 4 = 970401 /\ slice B 12 4 = str "CXYZ" /\
  (bin_version B = 970404 \/ bin_version B = 20010129 \/ bin_version B = 20010712 \/ 20020715 <= bin_version B < 20051231) /\
  bin_count B < 2 ^ 31.
(** ... that holds all its points *)
Definition bin_complete (B : list Z) : Prop := (56 + Z.to_nat (bin_count B) * bin_record B <= length B)%nat.

(** The LAS format for a point with or without time and colour. *)
Definition las_format (time color : bool) : Z :=
  match time, color with false, false => 0 | true, false => 1 | false, true => 2 | true, true => 3 end.
Definition las_length (time color : bool) : Z := 20 + (if time then 8 else 0) + (if color then 6 else 0).

(** The LAS flag byte (return number in bits 0-2, number of returns in bits 3-5)
    for TerraScan's echo: 0 only, 1 first of many, 3 last of many, else intermediate. *)
Definition echo_flags (echo : Z) : Z :=
  if echo =? 0 then 1 + 8 * 1 else if echo =? 1 then 1 else if echo =? 3 then 2 + 8 * 2 else 2 + 8 * 3.

(** Time is stored in steps of 0.0002 s. *)
Definition step : f64 := f64_of_bits 4551510721646314285.

(** The first 20 bytes of the LAS record (LAS 1.2: X Y Z, intensity, flags,
    classification, scan angle, user data, point source id) of the record at [o]. *)
Definition las_core (B : list Z) (o : nat) : list Z :=
  if bin_long B then
    slice B o 12 ++ slice B (o + 18) 2 ++ [echo_flags (u_at B (o + 13) 1)] ++ slice B (o + 12) 1 ++ [0; 0; 0; 0]
  else
    slice B (o + 4) 12 ++ le_enc 2 (u_at B (o + 2) 2 mod 2 ^ 14) ++ [echo_flags (u_at B (o + 2) 2 / 2 ^ 14)] ++ slice B o 1 ++ [0; 0; 0; 0].
(** GPS time of the four bytes at [o] *)
Definition las_time (B : list Z) (o : nat) : list Z := le_enc 8 (f64_bits (f64_mul (f64_of_Z (u_at B o 4)) step)).
(** red, green, blue (two bytes each) of the four bytes at [o], taken to be red,
    blue, green *)
Definition las_color (B : list Z) (o : nat) : list Z := le_enc 2 (u_at B o 1) ++ le_enc 2 (u_at B (o + 2) 1) ++ le_enc 2 (u_at B (o + 1) 1).
(** The LAS record for the .bin record at [o], and for point [i] *)
Definition las_record_at (B : list Z) (o : nat) : list Z :=
  let t := (o + bin_core B)%nat in
  let c := (t + if bin_has_time B then 4 else 0)%nat in
  las_core B o ++ (if bin_has_time B then las_time B t else []) ++ (if bin_has_color B then las_color B c else []).
Definition las_record (B : list Z) (i : nat) : list Z := las_record_at B (56 + i * bin_record B).

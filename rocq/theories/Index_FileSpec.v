(** Vocabulary for an index saved in a file: the coordinates and the bounding box a
    LAS file holds (LAS 1.2: doubles in the header block, signed 32-bit numbers at
    the front of each record). *)
From Coq Require Import ZArith List Bool String.
Import ListNotations.
From Verif Require Import Outcome Bytes Float64 Vlr_Model Bounds_Model IO_Spec Reader_Spec Chipper_Spec Index_Query.
Local Open Scope Z_scope.
Local Notation length := List.length (only parsing).

Definition real_at (F : list Z) (o : nat) : f64 := f64_of_bits (u_at F o 8).
Definition int_at (d : list Z) (o : nat) : Z := to_signed 32 (u_at d o 4).
(** number * scale + offset, computed in doubles *)
Definition real_of (scale offset : f64) (v : Z) : f64 := f64_add (f64_mul (f64_of_Z v) scale) offset.
Definition file_point (F : list Z) (i : Z) : coords :=
  (real_of (real_at F 131) (real_at F 155) (int_at (file_record F i) 0),
   real_of (real_at F 139) (real_at F 163) (int_at (file_record F i) 4),
   real_of (real_at F 147) (real_at F 171) (int_at (file_record F i) 8)).
Definition file_coords (F : list Z) : list coords := map (file_point F) (zseq 0 (Z.to_nat (f_npts F))).
Definition file_x (F : list Z) : range := mkRange (real_at F 187) (real_at F 179).
Definition file_y (F : list Z) : range := mkRange (real_at F 203) (real_at F 195).
Definition file_z (F : list Z) : range := mkRange (real_at F 219) (real_at F 211).

(** A VLR that an index of this library is made of: user id "liblas", record id 42
    (header) or 43 (data). *)
Definition index_vlr (v : vlr) : bool := has_id "liblas" 42 v || has_id "liblas" 43 v.

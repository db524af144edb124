(** Model of the index cell (/repo/include/liblas/detail/index/indexcell.hpp and
    /repo/src/detail/index/indexcell.cpp). *)
From Coq Require Import ZArith List Bool.
Import ListNotations.
From Verif Require Import Outcome Bytes Float64.
Local Open Scope Z_scope.

(** std::map with an unsigned key (indexcell.hpp:56-57): its elements in key
    order, which is the order its iterators visit them in. *)
Fixpoint im_find {A} (a : Z) (m : list (Z * A)) : option A :=
  match m with
  | [] => None
  | (k, v) :: m => if a =? k then Some v else im_find a m
  end.
(** m[a] = v *)
Fixpoint im_set {A} (a : Z) (v : A) (m : list (Z * A)) : list (Z * A) :=
  match m with
  | [] => [(a, v)]
  | (k, w) :: m' => if a <? k then (a, v) :: m else if a =? k then (a, v) :: m' else (k, w) :: im_set a v m'
  end.

(** indexcell.hpp:56: [IndexCellData], first point id -> number of consecutive points *)
Definition runs : Type := list (Z * Z).
(** indexcell.hpp:57: [IndexSubCellData] *)
Definition subs : Type := list (Z * runs).

(** indexcell.hpp:66-71 *)
Record cell := mkCell {
  k_off : Z;             (* m_FileOffset, uint64 *)
  k_num : Z;             (* m_NumPoints, uint32 *)
  k_minz : Z;            (* m_MinZ, int16 *)
  k_maxz : Z;            (* m_MaxZ, int16 *)
  k_pts : runs;          (* m_PtRecords *)
  k_zsub : subs;         (* m_ZCellRecords *)
  k_xysub : subs }.      (* m_SubCellRecords *)

(** indexcell.cpp:51-57 *)
Definition cell0 : cell := mkCell 0 0 32767 (-32768) [] [] [].

Definition k_with_pts (c : cell) (n : Z) (m : runs) : cell :=
  mkCell (k_off c) n (k_minz c) (k_maxz c) m (k_zsub c) (k_xysub c).
(** indexcell.cpp:60-68 *)
Definition set_file_offset (c : cell) (o : Z) : cell :=
  mkCell o (k_num c) (k_minz c) (k_maxz c) (k_pts c) (k_zsub c) (k_xysub c).
Definition set_num_points (c : cell) (n : Z) : cell := k_with_pts c n (k_pts c).
(** indexcell.cpp:75-78, 85-93 *)
Definition get_num_records (c : cell) : Z := Z.of_nat (length (k_pts c)) mod 2 ^ 32.
Definition get_num_sub_records (c : cell) : Z := Z.of_nat (length (k_xysub c)) mod 2 ^ 32.
Definition get_num_z_records (c : cell) : Z := Z.of_nat (length (k_zsub c)) mod 2 ^ 32.

(** indexcell.cpp:100-104 *)
Definition add_point_record (c : cell) (a : Z) : cell :=
  k_with_pts c ((k_num c + 1) mod 2 ^ 32) (im_set a 1 (k_pts c)).
(** indexcell.cpp:106-110 *)
Definition add_point_run (c : cell) (a b : Z) : cell :=
  k_with_pts c ((k_num c + b) mod 2 ^ 32) (im_set a b (k_pts c)).
(** indexcell.cpp:112-126: the new cell, or None when it returns false *)
Definition increment_point_record (c : cell) (a : Z) : option cell :=
  match im_find a (k_pts c) with
  | Some n => if n <? 255 then Some (k_with_pts c ((k_num c + 1) mod 2 ^ 32) (im_set a (n + 1) (k_pts c))) else None
  | None => None
  end.
(** indexcell.cpp:128-131 *)
Definition remove_main_records (c : cell) : cell := k_with_pts c (k_num c) [].
(** indexcell.cpp:133-147 *)
Definition remove_all_records (c : cell) : cell :=
  mkCell (k_off c) (k_num c) (k_minz c) (k_maxz c) [] [] [].

(** indexcell.cpp:149-162 *)
Definition update_z_bounds (c : cell) (z : f64) : outcome cell :=
  let with_z lo hi := mkCell (k_off c) (k_num c) lo hi (k_pts c) (k_zsub c) (k_xysub c) in
  if f64_gt z (f64_of_Z 32767) then Ok (with_z (k_minz c) 32767)
  else if f64_lt z (f64_of_Z (-32768)) then Ok (with_z (-32768) (k_maxz c))
  else
    let! hi := (if f64_gt z (f64_of_Z (k_maxz c)) then f64_to_int (in_signedb 16) (f64_ceil z) else Ok (k_maxz c)) in
    let! lo := (if f64_lt z (f64_of_Z (k_minz c)) then f64_to_int (in_signedb 16) (f64_floor z) else Ok (k_minz c)) in
    Ok (with_z lo hi).
(** indexcell.cpp:164-167 *)
Definition get_z_range (c : cell) : Z := if k_maxz c >? k_minz c then k_maxz c - k_minz c else 0.

(** indexcell.cpp:169-183 ([AddZCell]) and 204-219 ([AddSubCell]) on the map they
    change *)
Definition sub_add (m : subs) (a b : Z) : subs :=
  match im_find a m with
  | Some p => im_set a (im_set b 1 p) m
  | None => im_set a [(b, 1)] m
  end.
(** indexcell.cpp:185-202 ([IncrementZCell]) and 221-238 ([IncrementSubCell]) *)
Definition sub_increment (m : subs) (a b : Z) : option subs :=
  match im_find a m with
  | Some p => match im_find b p with
              | Some n => if n <? 255 then Some (im_set a (im_set b (n + 1) p) m) else None
              | None => None
              end
  | None => None
  end.
Definition with_zsub (c : cell) (m : subs) : cell :=
  mkCell (k_off c) (k_num c) (k_minz c) (k_maxz c) (k_pts c) m (k_xysub c).
Definition with_xysub (c : cell) (m : subs) : cell :=
  mkCell (k_off c) (k_num c) (k_minz c) (k_maxz c) (k_pts c) (k_zsub c) m.

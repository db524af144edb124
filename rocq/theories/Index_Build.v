(** Model of Index::BuildIndex (/repo/src/index.cpp:1030-1310) with IdentifyCell,
    IdentifyCellZ and IdentifySubCell (1312-1385).

    Simplifications: the reader is the list of the coordinates of the points of
    the file (no filters, the file is not truncated, the reads cannot fail because
    of the device); a temporary file name is given, as the builder needs one
    (without one LoadCellFromTempFile uses a null FILE pointer, [load_cell]); the
    debug output is left out; what is written afterwards (SaveIndexInLASFile,
    SaveIndexInStandAloneFile) is the list of VLRs returned here. *)
From Coq Require Import ZArith List Bool.
From Flocq Require Import Core BinarySingleNaN Binary Bits.
Import ListNotations.
From Verif Require Import Outcome Bytes CStr Float64 Vlr_Model Bounds_Model Index_Cell Index_Temp Index_Scan Index_Out Index_Query.
Local Open Scope Z_scope.
Local Notation length := List.length (only parsing).

(** sqrt of <cmath>, correctly rounded *)
Definition f64_sqrt (x : f64) : f64 := b64_sqrt mode_NE x.

(** ** Which cell a point is in *)

(** index.cpp:1316-1324 (1327-1335, 1346-1354): one axis; None: out of bounds *)
Definition identify (lo rg : f64) (cells : Z) (v : f64) : outcome (option Z) :=
  let o := f64_div (f64_sub v lo) rg in
  if f64_ge o f64_zero && f64_lt o f64_one
  then let! k := f64_to_uint32 (f64_mul o (f64_of_Z cells)) in Ok (Some k)
  else if compare_distance o f64_one then Ok (Some ((cells - 1) mod 2 ^ 32))
  else Ok None.
(** index.cpp:1366-1370 (1371-1372, 1380-1381): whether the point is in the upper
    half of the cell *)
Definition upper (lo csize : f64) (cell : Z) (v : f64) : bool :=
  f64_gt (f64_div (f64_sub v (f64_add (f64_mul (f64_of_Z cell) csize) lo)) csize) f64_half.
(** index.cpp:1361-1385 *)
Definition sub_number (ux uy : bool) : Z := if ux then (if uy then 3 else 1) else (if uy then 2 else 0).

(** ** The grid *)

(** The members BuildIndex fills: bounds, ranges, m_cellSizeX, m_cellSizeY,
    m_cellsX, m_cellsY, m_cellsZ. *)
Record grid := mkGrid {
  gr_x : range; gr_y : range; gr_z : range;
  gr_rx : f64; gr_ry : f64; gr_rz : f64;
  gr_sx : f64; gr_sy : f64;
  gr_cx : Z; gr_cy : Z; gr_cz : Z }.
(** index.cpp:1067-1072: numbers of cells in x and y before the reduction *)
Definition at_least_1 (n : Z) : Z := if n <? 1 then 1 else n.
Definition first_total (n : Z) : outcome Z :=
  let! t := f64_to_uint32 (f64_sqrt (f64_of_Z (n / 100))) in
  Ok (if t <? 10 then 10 else t).
(** index.cpp:1077-1085 *)
Definition reduce_cells (cx cy : Z) : outcome (Z * Z) :=
  let total := (cx * cy) mod 2 ^ 32 in
  if 250000 <? total then
    let ratio := f64_sqrt (f64_div (f64_of_Z 250000) (f64_of_Z total)) in
    let! cx := f64_to_uint32 (f64_mul (f64_of_Z cx) ratio) in
    let! cy := f64_to_uint32 (f64_mul (f64_of_Z cy) ratio) in
    Ok (cx, cy)
  else Ok (cx, cy).
(** index.cpp:1040-1087; None: the function returns false.  [n] is the number of
    point records of the header, [csz] is m_cellSizeZ. *)
Definition make_grid (x y z : range) (n : Z) (csz : f64) : outcome (option grid) :=
  if negb (verify_range x && verify_range y && verify_range z) then Ok None
  else
    let rx := f64_sub (rg_max x) (rg_min x) in let ry := f64_sub (rg_max y) (rg_min y) in let rz := f64_sub (rg_max z) (rg_min z) in
    let! cz := (if f64_gt csz f64_zero && negb (compare_distance csz f64_zero) then f64_to_uint32 (f64_ceil (f64_div rz csz)) else Ok 1) in
    if f64_le (rg_max x) (rg_min x) || f64_le (rg_max y) (rg_min y) then Ok None
    else
      let xratio := if f64_ge rx ry then f64_one else f64_div rx ry in
      let yratio := if f64_ge ry rx then f64_one else f64_div ry rx in
      let! total := first_total n in
      let! cx := f64_to_uint32 (f64_mul xratio (f64_of_Z total)) in
      let! cy := f64_to_uint32 (f64_mul yratio (f64_of_Z total)) in
      let! (cx, cy) := reduce_cells (at_least_1 cx) (at_least_1 cy) in
      Ok (Some (mkGrid x y z rx ry rz (f64_div rx (f64_of_Z cx)) (f64_div ry (f64_of_Z cy)) cx cy cz)).

(** index.cpp:1312-1338, with the cell numbered as in [placed] *)
Definition identify_cell (g : grid) (p : coords) : outcome placed :=
  let! x := identify (rg_min (gr_x g)) (gr_rx g) (gr_cx g) (c_x p) in
  match x with
  | None => Ok None
  | Some x =>
      let! y := identify (rg_min (gr_y g)) (gr_ry g) (gr_cy g) (c_y p) in
      match y with
      | None => Ok None
      | Some y => Ok (Some (x * gr_cy g + y, c_z p))
      end
  end.
Fixpoint identify_all (g : grid) (pts : list coords) : outcome (list placed) :=
  match pts with
  | [] => Ok []
  | p :: pts => let! a := identify_cell g p in let! l := identify_all g pts in Ok (a :: l)
  end.

(** ** Dividing a cell *)

(** the number of the part a point belongs to: index.cpp:1340-1359 or 1361-1385 *)
Definition part_of (g : grid) (zbin : bool) (x y : Z) (p : coords) : outcome (option Z) :=
  if zbin then identify (rg_min (gr_z g)) (gr_rz g) (gr_cz g) (c_z p)
  else Ok (Some (sub_number (upper (rg_min (gr_x g)) (gr_sx g) x (c_x p)) (upper (rg_min (gr_y g)) (gr_sy g) y (c_y p)))).
(** index.cpp:1205-1253: the points of one record from number [id] on, [n] of them
    left, with FirstPt and LastCellZ or LastSubCell.  None: a read failed.  The
    first of them is sought (Seek, reader.cpp:144-157), the others follow it. *)
Fixpoint divide_run (pts : list coords) (part : coords -> outcome (option Z)) (n : nat) (id first last : Z) (m : subs) : outcome (option subs) :=
  match n with
  | O => Ok (Some m)
  | S n =>
      match nth_error pts (Z.to_nat id) with
      | None => Ok None
      | Some p =>
          let! k := part p in
          match k with
          | None => divide_run pts part n (id + 1) first last m
          | Some k =>
              match (if k =? last then sub_increment m k first else None) with
              | Some m => divide_run pts part n (id + 1) first last m
              | None => divide_run pts part n (id + 1) id k (sub_add m k id)
              end
          end
      end
  end.
(** index.cpp:1199-1262: all records.  A record of 0 points reads its first point
    only. *)
Fixpoint divide_runs (pts : list coords) (part : coords -> outcome (option Z)) (l : runs) (m : subs) : outcome (option subs) :=
  match l with
  | [] => Ok (Some m)
  | (id, n) :: l =>
      if lenB pts <? id then Throw ERuntime
      else if id =? lenB pts then Ok None
      else
        let! r := divide_run pts part (Z.to_nat n) id 0 (2 ^ 32 - 1) m in
        match r with
        | None => Ok None
        | Some m => divide_runs pts part l m
        end
  end.
(** index.cpp:1184-1265, the cell at column [x], row [y] *)
Definition divide_cell (g : grid) (csz : f64) (pts : list coords) (x y : Z) (c : cell) : outcome (option cell) :=
  let zbin := (1 <? gr_cz g) && f64_gt (f64_of_Z (get_z_range c)) csz in
  if zbin || (1000 <? k_num c) then
    let! r := divide_runs pts (part_of g zbin x y) (k_pts c) (if zbin then k_zsub c else k_xysub c) in
    match r with
    | None => Ok None
    | Some m => Ok (Some (remove_main_records (if zbin then with_zsub c m else with_xysub c m)))
    end
  else Ok (Some c).

(** index.cpp:1175-1284: the cells from number [k] on, loaded and divided, with
    their columns and rows; None: the function returns false.  (Each cell is
    written out as soon as it is divided, and then emptied; that changes no other
    cell.) *)
Fixpoint finish_cells (g : grid) (csz : f64) (pts : list coords) (t : temp) (k : Z) (cells : list cell) : outcome (option (list (Z * Z * cell))) :=
  match cells with
  | [] => Ok (Some [])
  | c :: cells =>
      let x := k / gr_cy g in let y := k mod gr_cy g in
      let! c := load_cell t k c in
      match c with
      | None => Ok None
      | Some c =>
          let! c := divide_cell g csz pts x y c in
          match c with
          | None => Ok None
          | Some c =>
              let! r := finish_cells g csz pts t (k + 1) cells in
              Ok (match r with None => None | Some l => Some ((x, y, c) :: l) end)
          end
      end
  end.

(** What BuildIndex is given: the bounds and the number of points in the header,
    the strings, m_cellSizeZ, MaxPointsInMemory, and the VLRs of m_idxheader. *)
Record job := mkJob {
  j_x : range; j_y : range; j_z : range; j_count : Z;
  j_author : list Z; j_comment : list Z; j_date : list Z;
  j_csz : f64; j_maxmem : Z; j_vlrs : list vlr }.
(** what is written about the index: version 1.2, data VLR id 43 *)
Definition head_of (j : job) (g : grid) : ihead :=
  mkIHead 1 2 (j_author j) (j_comment j) (j_date j)
    (rg_min (gr_x g)) (rg_max (gr_x g)) (rg_min (gr_y g)) (rg_max (gr_y g)) (rg_min (gr_z g)) (rg_max (gr_z g))
    43 (j_count j) (gr_cx g) (gr_cy g) (gr_cz g).
(** index.cpp:1030-1310: the index header and the VLRs; None: returns false *)
Definition build_index (j : job) (pts : list coords) : outcome (option (ihead * list vlr)) :=
  let! g := make_grid (j_x j) (j_y j) (j_z j) (j_count j) (j_csz j) in
  match g with
  | None => Ok None
  | Some g =>
      let! ps := identify_all g pts in
      let total := (gr_cx g * gr_cy g) mod 2 ^ 32 in
      let! s := scan_all total true (j_maxmem j) ps in
      let! cells := finish_cells g (j_csz j) pts (s_temp s) 0 (s_cells s) in
      match cells with
      | None => Ok None
      | Some cells =>
          let! vlrs := write_index (j_vlrs j) (head_of j g) cells in
          Ok (Some (head_of j g, vlrs))
      end
  end.

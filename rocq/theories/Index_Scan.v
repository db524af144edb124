(** Model of the pass of Index::BuildIndex that sorts the points into cells
    (/repo/src/index.cpp:1099-1159), given the cell of each point. *)
From Coq Require Import ZArith List Bool.
Import ListNotations.
From Verif Require Import Outcome Bytes Float64 Summary_Model Cached_Model Index_Cell Index_Temp.
Local Open Scope Z_scope.

(** What IdentifyCell (index.cpp:1312-1338) says about a point: None when it
    returns false, otherwise the cell, numbered [x * m_cellsY + y], and the
    elevation given to UpdateZBounds. *)
Definition placed : Type := option (Z * f64).

(** The local variables of the loop: the cells; the temporary file; LastCellX and
    LastCellY as one number, [-1] for the initial [~0, ~0] no cell has;
    LastPointID; PointID; PointsInMemory. *)
Record scan := mkScan {
  s_cells : list cell;
  s_temp : temp;
  s_last : Z;
  s_lastid : Z;
  s_id : Z;
  s_mem : Z }.

(** index.cpp:1104-1120 *)
Definition scan0 (total : Z) : scan := mkScan (repeat cell0 (Z.to_nat total)) temp0 (-1) 0 0 0.

(** index.cpp:1129-1152, one turn of the loop.  [named]: m_tempFileName is not
    empty; [maxmem]: MaxPointsInMemory. *)
Definition scan_point (total : Z) (named : bool) (maxmem : Z) (s : scan) (p : placed) : outcome scan :=
  let next := (s_id s + 1) mod 2 ^ 32 in
  match p with
  | None => Ok (mkScan (s_cells s) (s_temp s) (s_last s) (s_lastid s) next (s_mem s))
  | Some (k, z) =>
      let! c := vget (s_cells s) k in
      match (if k =? s_last s then increment_point_record c (s_lastid s) else None) with
      | Some c =>
          let! c := update_z_bounds c z in
          let! cells := vset (s_cells s) k c in
          Ok (mkScan cells (s_temp s) (s_last s) (s_lastid s) next (s_mem s))
      | None =>
          let '(cells, t, mem) :=
            if named && (maxmem <=? s_mem s)
            then let '(cells, t) := purge total (s_temp s) (s_cells s) in (cells, t, 0)
            else (s_cells s, s_temp s, s_mem s) in
          let! c := vget cells k in
          let! c := update_z_bounds (add_point_record c (s_id s)) z in
          let! cells := vset cells k c in
          Ok (mkScan cells t k (s_id s) next ((mem + 1) mod 2 ^ 32))
      end
  end.

(** index.cpp:1124-1153 *)
Fixpoint scan_points (total : Z) (named : bool) (maxmem : Z) (s : scan) (ps : list placed) : outcome scan :=
  match ps with
  | [] => Ok s
  | p :: ps => let! s := scan_point total named maxmem s p in scan_points total named maxmem s ps
  end.

(** index.cpp:1110-1159 *)
Definition scan_all (total : Z) (named : bool) (maxmem : Z) (ps : list placed) : outcome scan :=
  let! s := scan_points total named maxmem (scan0 total) ps in
  if named
  then let '(cells, t) := purge total (s_temp s) (s_cells s) in
       Ok (mkScan cells t (s_last s) (s_lastid s) (s_id s) (s_mem s))
  else Ok s.

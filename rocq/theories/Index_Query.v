(** Model of the query side of the spatial index (/repo/src/index.cpp:260-1028
    and the IndexData and IndexIterator members 2003-2157; helpers
    /repo/include/liblas/index.hpp:522-567).

    Simplifications: the reader is the list of the coordinates of the points of
    the file and the number of the next point (m_current; no filters or transforms
    on it, the file is not truncated); asserts are compiled out; allocation
    succeeds; the host is little endian; m_curCellX and m_curCellY, which are only
    written, and all debug output are left out; the counters of scanned points do
    not wrap at 2^32. *)
From Coq Require Import ZArith List Bool.
Import ListNotations.
From Verif Require Import Outcome Bytes CStr Float64 Vlr_Model Bounds_Model Index_Cell Index_Out.
Local Open Scope Z_scope.
Local Notation length := List.length (only parsing).

(** The data members of Index the query uses (index.hpp:126-145): the fields of
    the index header, m_rangeX, m_rangeY, m_rangeZ. *)
Record idx := mkIdx { ix_h : ihead; ix_rx : f64; ix_ry : f64; ix_rz : f64 }.

(** One axis of IndexData (index.hpp:412-427): the filter interval, m_noFilter,
    Low/High CellCompletelyIn, Low/High BorderCell, Low/High BorderPartCell. *)
Record axis := mkAxis {
  ax_r : range; ax_off : bool;
  ax_lin : Z; ax_hin : Z; ax_lb : Z; ax_hb : Z;
  ax_lpart : f64; ax_hpart : f64 }.
Record query := mkQuery { q_x : axis; q_y : axis; q_z : axis }.

(** index.hpp:472-477 *)
Record iter := mkIter {
  it_chunk : Z;          (* m_chunkSize *)
  it_adv : Z;            (* m_advance *)
  it_vlr : Z;            (* m_curVLR *)
  it_pos : Z;            (* m_curCellStartPos *)
  it_total : Z;          (* m_totalPointsScanned *)
  it_cell : Z;           (* m_ptsScannedCurCell *)
  it_vpts : Z;           (* m_ptsScannedCurVLR *)
  it_found : Z }.        (* m_conformingPtsFound *)

(** ** SetFilterValues *)

(** bounds.hpp:559-577 on one range; index.cpp:2003-2031 call it *)
Definition verify_range (r : range) : bool :=
  negb (f64_gt (rg_min r) (rg_max r) &&
        (compare_distance (rg_min r) dbl_max || compare_distance (rg_max r) (f64_opp dbl_max))).
Definition axis_of (r : range) (off : bool) : axis := mkAxis r off 0 0 0 0 f64_zero f64_zero.
(** index.cpp:2032-2041 on one axis: m_noFilter is only ever set *)
Definition enabler (r : range) (off : bool) : bool := if compare_distance (rg_min r) (rg_max r) then true else off.
Definition ih_range_x (h : ihead) : range := mkRange (ih_minx h) (ih_maxx h).
Definition ih_range_y (h : ihead) : range := mkRange (ih_miny h) (ih_maxy h).
Definition ih_range_z (h : ihead) : range := mkRange (ih_minz h) (ih_maxz h).
(** index.cpp:2003-2031 (both overloads) on an IndexData whose filters are all
    on: the new IndexData, and what the function returns; None: verify threw *)
Definition set_filter_values (h : ihead) (bx by_ bz : range) : option (query * bool) :=
  if verify_range bx && verify_range by_ && verify_range bz then
    let clip b r := range_clip b r in
    let bx := clip bx (ih_range_x h) in let by_ := clip by_ (ih_range_y h) in let bz := clip bz (ih_range_z h) in
    let ox := enabler bx false in let oy := enabler by_ false in let oz := enabler bz false in
    Some (mkQuery (axis_of bx ox) (axis_of by_ oy) (axis_of bz oz), negb (ox && oy && oz))
  else None.

(** ** SetCellFilterBounds *)

(** index.cpp:391-394, 398-399: the position of a bound in units of cells *)
Definition cell_pos (cells : Z) (lo rg v : f64) : f64 :=
  f64_div (f64_mul (f64_of_Z cells) (f64_sub v lo)) rg.
(** index.cpp:405-436 on one axis, from the positions of the two bounds *)
Definition axis_cells (a : axis) (vlo vhi : f64) : outcome axis :=
  let! lin := f64_to_int32 (f64_ceil vlo) in
  let! hin := f64_to_int32 (f64_sub (f64_floor vhi) f64_one) in
  let lowd := f64_floor vlo in let highd := f64_sub (f64_ceil vhi) f64_one in
  let! lb := f64_to_int32 lowd in
  let! hb := f64_to_int32 highd in
  Ok (mkAxis (ax_r a) (ax_off a) lin hin lb hb (f64_sub vlo lowd) (f64_sub vhi highd)).
(** index.cpp:384-438 *)
Definition set_cell_bounds (ix : idx) (q : query) : outcome query :=
  let h := ix_h ix in
  let pos cells lo rg a := axis_cells a (cell_pos cells lo rg (rg_min (ax_r a))) (cell_pos cells lo rg (rg_max (ax_r a))) in
  let! ax := pos (ih_cx h) (ih_minx h) (ix_rx ix) (q_x q) in
  let! ay := pos (ih_cy h) (ih_miny h) (ix_ry ix) (q_y q) in
  let! az := (if f64_gt (ix_rz ix) f64_zero && negb (compare_distance (ix_rz ix) f64_zero)
              then pos (ih_cz h) (ih_minz h) (ix_rz ix) (q_z q)
              else axis_cells (q_z q) f64_zero f64_zero) in
  Ok (mkQuery ax ay az).

(** ** LoadIndexVLR *)

(** [ReadVLRData_n]: an unsigned little-endian number of [n] bytes at [pos];
    None: std::out_of_range *)
Definition get_n (n : nat) (d : list Z) (pos : Z) : option Z :=
  match buf_get d (Z.to_nat pos) n with Some bs => Some (le_dec bs) | None => None end.
(** char DestStr[512]; None is a byte never written *)
Definition destbuf : Type := list (option Z).
(** std::string = DestStr: the characters before the first zero *)
Fixpoint dest_str (b : destbuf) : outcome (list Z) :=
  match b with
  | [] => UB UBOutOfBounds
  | None :: _ => UB UBUninit
  | Some c :: b => if c =? 0 then Ok [] else let! s := dest_str b in Ok (c :: s)
  end.
(** index.cpp:454-456 (and 459-461, 464-466): ReadPos is a uint16.  None:
    std::out_of_range, otherwise the string, DestStr and ReadPos. *)
Definition get_str (b : destbuf) (d : list Z) (pos : Z) : outcome (option (list Z * destbuf * Z)) :=
  match get_n 2 d pos with
  | None => Ok None
  | Some n =>
      let pos := (pos + 2) mod 2 ^ 16 in
      match buf_get d (Z.to_nat pos) (Z.to_nat n) with
      | None => Ok None
      | Some bs =>
          if 512 <? n then UB UBOutOfBounds
          else let b := map Some bs ++ skipn (Z.to_nat n) b in
               let! s := dest_str b in
               Ok (Some (s, b, (pos + n) mod 2 ^ 16))
      end
  end.
(** assignments to the members *)
Definition h_major (v : Z) (h : ihead) : ihead :=
  mkIHead v (ih_minor h) (ih_author h) (ih_comment h) (ih_date h) (ih_minx h) (ih_maxx h) (ih_miny h) (ih_maxy h) (ih_minz h) (ih_maxz h) (ih_data h) (ih_count h) (ih_cx h) (ih_cy h) (ih_cz h).
Definition h_minor (v : Z) (h : ihead) : ihead :=
  mkIHead (ih_major h) v (ih_author h) (ih_comment h) (ih_date h) (ih_minx h) (ih_maxx h) (ih_miny h) (ih_maxy h) (ih_minz h) (ih_maxz h) (ih_data h) (ih_count h) (ih_cx h) (ih_cy h) (ih_cz h).
Definition h_author (v : list Z) (h : ihead) : ihead :=
  mkIHead (ih_major h) (ih_minor h) v (ih_comment h) (ih_date h) (ih_minx h) (ih_maxx h) (ih_miny h) (ih_maxy h) (ih_minz h) (ih_maxz h) (ih_data h) (ih_count h) (ih_cx h) (ih_cy h) (ih_cz h).
Definition h_comment (v : list Z) (h : ihead) : ihead :=
  mkIHead (ih_major h) (ih_minor h) (ih_author h) v (ih_date h) (ih_minx h) (ih_maxx h) (ih_miny h) (ih_maxy h) (ih_minz h) (ih_maxz h) (ih_data h) (ih_count h) (ih_cx h) (ih_cy h) (ih_cz h).
Definition h_date (v : list Z) (h : ihead) : ihead :=
  mkIHead (ih_major h) (ih_minor h) (ih_author h) (ih_comment h) v (ih_minx h) (ih_maxx h) (ih_miny h) (ih_maxy h) (ih_minz h) (ih_maxz h) (ih_data h) (ih_count h) (ih_cx h) (ih_cy h) (ih_cz h).
(** the bounds minx, maxx, miny, maxy, minz, maxz, as many as were read *)
Definition h_bounds (l : list f64) (h : ihead) : ihead :=
  mkIHead (ih_major h) (ih_minor h) (ih_author h) (ih_comment h) (ih_date h)
      (nth 0 l (ih_minx h)) (nth 1 l (ih_maxx h)) (nth 2 l (ih_miny h)) (nth 3 l (ih_maxy h)) (nth 4 l (ih_minz h)) (nth 5 l (ih_maxz h))
      (ih_data h) (ih_count h) (ih_cx h) (ih_cy h) (ih_cz h).
(** the data VLR id, the number of points, the numbers of cells, as many as were read *)
Definition h_ints (l : list Z) (h : ihead) : ihead :=
  mkIHead (ih_major h) (ih_minor h) (ih_author h) (ih_comment h) (ih_date h)
      (ih_minx h) (ih_maxx h) (ih_miny h) (ih_maxy h) (ih_minz h) (ih_maxz h)
      (nth 0 l (ih_data h)) (nth 1 l (ih_count h)) (nth 2 l (ih_cx h)) (nth 3 l (ih_cy h)) (nth 4 l (ih_cz h)).
(** index.cpp:469-490: [n] doubles from [p]; those read, ReadPos, whether all were *)
Fixpoint get_doubles (d : list Z) (n : nat) (p : Z) : list f64 * Z * bool :=
  match n with
  | O => ([], p, true)
  | S n => match get_n 8 d p with
           | Some bits => let '(l, p, ok) := get_doubles d n ((p + 8) mod 2 ^ 16) in (f64_of_bits bits :: l, p, ok)
           | None => ([], p, false)
           end
  end.
(** index.cpp:491-501 *)
Fixpoint get_ints (d : list Z) (n : nat) (p : Z) : list Z * Z * bool :=
  match n with
  | O => ([], p, true)
  | S n => match get_n 4 d p with
           | Some v => let '(l, p, ok) := get_ints d n ((p + 4) mod 2 ^ 16) in (v :: l, p, ok)
           | None => ([], p, false)
           end
  end.
Definition with_h (ix : idx) (h : ihead) : idx := mkIdx h (ix_rx ix) (ix_ry ix) (ix_rz ix).
(** index.cpp:467-512, once the strings have been read *)
Definition load_numbers (ix : idx) (h : ihead) (d : list Z) (p : Z) : idx * bool :=
  let '(ds, p, ok) := get_doubles d 6 p in
  let h := h_bounds ds h in
  if ok then
    let '(is_, p, ok) := get_ints d 5 p in
    let h := h_ints is_ h in
    if ok then (mkIdx h (f64_sub (ih_maxx h) (ih_minx h)) (f64_sub (ih_maxy h) (ih_miny h)) (f64_sub (ih_maxz h) (ih_minz h)), true)
    else (with_h ix h, false)
  else (with_h ix h, false).
(** index.cpp:440-512: the index afterwards and the value returned.  When a read
    fails the members read before it keep their new values. *)
Definition load_index_vlr (ix : idx) (v : vlr) : outcome (idx * bool) :=
  let d := v_data v in
  match get_n 1 d 0 with
  | None => Ok (ix, false)
  | Some major =>
  match get_n 1 d 1 with
  | None => Ok (with_h ix (h_major major (ix_h ix)), false)
  | Some minor =>
  let! r := get_str (repeat None 512) d 2 in
  match r with
  | None => Ok (with_h ix (h_minor minor (h_major major (ix_h ix))), false)
  | Some (author, b, p) =>
  let! r := get_str b d p in
  match r with
  | None => Ok (with_h ix (h_author author (h_minor minor (h_major major (ix_h ix)))), false)
  | Some (comment, b, p) =>
  let! r := get_str b d p in
  match r with
  | None => Ok (with_h ix (h_comment comment (h_author author (h_minor minor (h_major major (ix_h ix))))), false)
  | Some (date, _, p) =>
  Ok (load_numbers ix (h_date date (h_comment comment (h_author author (h_minor minor (h_major major (ix_h ix)))))) d p)
  end end end end end.

(** ** Which VLRs, cells, sub-cells are looked at *)

(** index.cpp:762-777; the uint32 arguments become int32 *)
Definition vlr_interesting (q : query) (x0 y0 x1 y1 : Z) : bool :=
  let x0 := to_signed 32 x0 in let y0 := to_signed 32 y0 in let x1 := to_signed 32 x1 in let y1 := to_signed 32 y1 in
  (ax_off (q_x q) || ((ax_lb (q_x q) <=? x1) && (x0 <=? ax_hb (q_x q)))) &&
  (ax_off (q_y q) || negb (x1 =? x0) || ((ax_lb (q_y q) <=? y1) && (y0 <=? ax_hb (q_y q)))).
(** index.cpp:779-790 *)
Definition in_border (a : axis) (c : Z) : bool :=
  ax_off a || ((ax_lb a <=? to_signed 32 c) && (to_signed 32 c <=? ax_hb a)).
Definition cell_interesting (q : query) (x y : Z) : bool := in_border (q_x q) x && in_border (q_y q) y.
(** index.cpp:792-801 *)
Definition zcell_interesting (q : query) (z : Z) : bool := in_border (q_z q) z.
(** index.cpp:803-889, one axis: [low]: the sub-cell is in the low half *)
Definition half_good (a : axis) (c : Z) (low : bool) : bool :=
  let c := to_signed 32 c in
  if ax_off a || ((ax_lin a <=? c) && (c <=? ax_hin a)) then true
  else if c =? ax_lb a
  then (if low then f64_le (ax_lpart a) f64_half else true)
  else (if low then true else f64_gt (ax_hpart a) f64_half).
Definition subcell_interesting (q : query) (sub x y : Z) : bool :=
  let s := to_signed 32 sub in
  half_good (q_x q) x ((s =? 0) || (s =? 2)) && half_good (q_y q) y ((s =? 0) || (s =? 1)).

(** ** FilterOnePoint *)

Definition coords : Type := f64 * f64 * f64.
Definition c_x (p : coords) : f64 := fst (fst p).
Definition c_y (p : coords) : f64 := snd (fst p).
Definition c_z (p : coords) : f64 := snd p.

(** reader.cpp:112-125 with detail/reader/reader.cpp:151-250: the point read, if
    there is one left *)
Definition rd_next (pts : list coords) (cur : Z) : option coords * Z :=
  if cur <? lenB pts then (nth_error pts (Z.to_nat cur), cur + 1) else (None, cur).
(** index.cpp:907-920 (and 947-960, 988-1001): reading point [pid] when the last
    one looked at was [last], which was read iff [lastread].  [last + 1] is an int
    addition; Seek (reader.cpp:144-157, detail/reader/reader.cpp:266-284) takes a
    size_t. *)
Definition rd_point (pts : list coords) (cur pid last : Z) (lastread : bool) : outcome (option coords * Z) :=
  if last =? 2 ^ 31 - 1 then UB UBIntOverflow
  else
    let '(p, cur) := if (pid =? last + 1) && lastread then rd_next pts cur else (None, cur) in
    match p with
    | Some p => Ok (Some p, cur)
    | None =>
        let n := pid mod 2 ^ 64 in
        if n =? lenB pts then Ok (None, cur)
        else if lenB pts <? n then Throw ERuntime
        else Ok (rd_next pts n)
    end.
(** index.cpp:898-930, 933-971, 974-1012: one axis of the test.  The point if it
    has been read so far, m_current, and whether the axis is good. *)
Definition test_axis (pts : list coords) (pid last : Z) (lastread : bool) (a : axis) (c : Z) (get : coords -> f64)
    (st : option coords * Z) : outcome (option coords * Z * bool) :=
  if ax_off a then Ok (st, true)
  else if (ax_lin a <=? c) && (c <=? ax_hin a) then Ok (st, true)
  else if (c =? ax_lb a) || (c =? ax_hb a) then
    let! st := (match fst st with Some _ => Ok st | None => rd_point pts (snd st) pid last lastread end) in
    match fst st with
    | Some p => Ok (st, f64_ge (get p) (rg_min (ax_r a)) && f64_le (get p) (rg_max (ax_r a)))
    | None => Ok (st, false)
    end
  else Ok (st, false).
(** index.cpp:891-1018: m_current, LastPtRead, the value returned; the uint32
    arguments become int32 *)
Definition filter_one_point (pts : list coords) (q : query) (x y z pid last : Z) (lastread : bool) (cur : Z) : outcome (Z * bool * bool) :=
  let pid := to_signed 32 pid in let last := to_signed 32 last in
  let! (st, gx) := test_axis pts pid last lastread (q_x q) (to_signed 32 x) c_x (None, cur) in
  let! (st, gy) := (if gx then test_axis pts pid last lastread (q_y q) (to_signed 32 y) c_y st else Ok (st, false)) in
  let! (st, gz) := (if gy then test_axis pts pid last lastread (q_z q) (to_signed 32 z) c_z st else Ok (st, false)) in
  Ok (snd st, match fst st with Some _ => true | None => false end, gz).

(** ** FilterPointSeries *)

(** m_filterResult, the reader's m_current, the iterator if there is one *)
Record fstate := mkF { fs_res : list Z; fs_cur : Z; fs_it : option iter }.
Definition with_it (s : fstate) (f : iter -> iter) : fstate :=
  mkF (fs_res s) (fs_cur s) (match fs_it s with Some i => Some (f i) | None => None end).
(** m_iterator && m_filterResult.size() >= m_chunkSize *)
Definition full (s : fstate) : bool :=
  match fs_it s with Some i => it_chunk i <=? lenB (fs_res s) | None => false end.
Definition add_cell (n : Z) (i : iter) : iter :=
  mkIter (it_chunk i) (it_adv i) (it_vlr i) (it_pos i) (it_total i) (it_cell i + n) (it_vpts i) (it_found i).
(** index.cpp:733-743: a point that passes; whether it is skipped *)
Definition found_one (i : iter) : iter * bool :=
  let adv := if it_adv i =? 0 then 0 else it_adv i - 1 in
  (mkIter (it_chunk i) adv (it_vlr i) (it_pos i) (it_total i) (it_cell i) (it_vpts i) (it_found i + 1),
   negb (adv =? 0)).
(** index.cpp:709-760; [n] points left of the run.  Returns PointsScanned. *)
Fixpoint series (pts : list coords) (q : query) (x y z ignore : Z) (n : nat) (pid last : Z) (lastread : bool)
    (scanned : Z) (s : fstate) : outcome (Z * fstate) :=
  match n with
  | O => Ok (scanned, s)
  | S n =>
      let scanned := scanned + 1 in
      let s := with_it s (add_cell 1) in
      if ignore <? scanned then
        let! (cur, lastread, good) := filter_one_point pts q x y z pid last lastread (fs_cur s) in
        let s := mkF (fs_res s) cur (fs_it s) in
        if good then
          let '(s, skip) := match fs_it s with
                            | Some i => let '(i, skip) := found_one i in (mkF (fs_res s) (fs_cur s) (Some i), skip)
                            | None => (s, false)
                            end in
          if skip then series pts q x y z ignore n ((pid + 1) mod 2 ^ 32) pid lastread scanned s
          else
            let s := mkF (fs_res s ++ [pid]) (fs_cur s) (fs_it s) in
            if full s then Ok (scanned, s)
            else series pts q x y z ignore n ((pid + 1) mod 2 ^ 32) pid lastread scanned s
        else series pts q x y z ignore n ((pid + 1) mod 2 ^ 32) pid lastread scanned s
      else series pts q x y z ignore n ((pid + 1) mod 2 ^ 32) pid lastread scanned s
  end.

(** ** FilterOneVLR *)

(** ReadPos, PointsScannedThisTime and the shared state *)
Record vscan := mkV { vs_pos : Z; vs_n : Z; vs_s : fstate }.

(** index.cpp:611-634 (643-663, 671-691): [n] records (point id, count), each
    looked at or skipped; false: std::out_of_range *)
Fixpoint read_runs (pts : list coords) (q : query) (d : list Z) (x y z ignore : Z) (test : bool) (n : nat) (v : vscan) : outcome (vscan * bool) :=
  match n with
  | O => Ok (v, true)
  | S n =>
      match get_n 4 d (vs_pos v) with
      | None => Ok (v, false)
      | Some id =>
          match get_n 1 d (vs_pos v + 4) with
          | None => Ok (mkV (vs_pos v + 4) (vs_n v) (vs_s v), false)
          | Some cnt =>
              let! (sc, s) := (if test then series pts q x y z ignore (Z.to_nat cnt) id (2 ^ 32 - 1) false (vs_n v) (vs_s v)
                               else Ok (vs_n v + cnt, with_it (vs_s v) (add_cell cnt))) in
              let v := mkV (vs_pos v + 5) sc s in
              if full s then Ok (v, true) else read_runs pts q d x y z ignore test n v
          end
      end
  end.
(** index.cpp:604-637 and 639-666: [n] sub-cells; [test] and [zof] give, from the
    number of the sub-cell, whether its points are looked at and their z cell *)
Fixpoint read_subs (pts : list coords) (q : query) (d : list Z) (x y : Z) (zof : Z -> Z) (ignore : Z) (test : Z -> bool) (n : nat) (v : vscan) : outcome (vscan * bool) :=
  match n with
  | O => Ok (v, true)
  | S n =>
      match get_n 4 d (vs_pos v) with
      | None => Ok (v, false)
      | Some id =>
          match get_n 4 d (vs_pos v + 4) with
          | None => Ok (mkV (vs_pos v + 4) (vs_n v) (vs_s v), false)
          | Some recs =>
              let! (v, ok) := read_runs pts q d x y (zof id) ignore (test id) (Z.to_nat recs) (mkV (vs_pos v + 8) (vs_n v) (vs_s v)) in
              if negb ok then Ok (v, false)
              else if full (vs_s v) then Ok (v, true)
              else read_subs pts q d x y zof ignore test n v
          end
      end
  end.
(** index.cpp:582-602: column, row, PtRecords, SubCellsXY, SubCellsZ and the new
    ReadPos; the number of points of the cell is there from version 1.1 on *)
Definition cell_head (ver : bool) (d : list Z) (p : Z) : option (Z * Z * Z * Z * Z * Z) :=
  match get_n 4 d p, get_n 4 d (p + 4), (if ver then get_n 4 d (p + 8) else Some 0) with
  | Some x, Some y, Some _ =>
      let p := p + (if ver then 12 else 8) in
      match get_n 2 d p, get_n 2 d (p + 2), get_n 4 d (p + 4), get_n 4 d (p + 8), get_n 4 d (p + 12) with
      | Some _, Some _, Some recs, Some sxy, Some sz => Some (x, y, recs, sxy, sz, p + 16)
      | _, _, _, _, _ => None
      end
  | _, _, _ => None
  end.
(** index.cpp:575-695, one turn of the loop *)
Definition scan_cell (pts : list coords) (q : query) (ver : bool) (d : list Z) (ignore : Z) (v : vscan) : outcome (vscan * bool) :=
  let s := with_it (vs_s v) (fun i => mkIter (it_chunk i) (it_adv i) (it_vlr i) (vs_pos v) (it_total i) 0 (it_vpts i) (it_found i)) in
  match cell_head ver d (vs_pos v) with
  | None => Ok (mkV (vs_pos v) (vs_n v) s, false)
  | Some (x, y, recs, sxy, sz, p) =>
      let test := cell_interesting q x y in
      let! (v, ok) := read_subs pts q d x y (fun z => z) ignore (fun z => test && zcell_interesting q z) (Z.to_nat sz) (mkV p (vs_n v) s) in
      if negb ok then Ok (v, false) else
      let! (v, ok) := read_subs pts q d x y (fun _ => 0) ignore (fun sub => test && subcell_interesting q sub x y) (Z.to_nat sxy) v in
      if negb ok then Ok (v, false) else
      if (sz =? 0) && (sxy =? 0) then read_runs pts q d x y 0 ignore test (Z.to_nat recs) v
      else Ok (v, true)
  end.
(** index.cpp:573-697; every turn reads at least 24 bytes *)
Fixpoint scan_cells (fuel : nat) (pts : list coords) (q : query) (ver : bool) (d : list Z) (drs ignore : Z) (v : vscan) : outcome (vscan * bool) :=
  if vs_pos v + 4 <? drs then
    match fuel with
    | O => UB UBDiverge
    | S fuel =>
        let! (v, ok) := scan_cell pts q ver d ignore v in
        if negb ok then Ok (v, false)
        else if full (vs_s v) then Ok (v, true)
        else scan_cells fuel pts q ver d drs ignore v
    end
  else Ok (v, true).

(** index.cpp:541-557: reading the VLRs that continue this one into the vector of
    DataRecordSize bytes; [i] is the number of the last VLR read, [comp] the bytes
    read so far.  None: std::out_of_range *)
Fixpoint gather (fuel : nat) (vlrs : list vlr) (drs : Z) (i : Z) (comp : list Z) (unread : Z) : outcome (Z * option (list Z)) :=
  if unread <=? 0 then Ok (i, Some comp)
  else match fuel with
       | O => UB UBDiverge
       | S fuel =>
           let i := i + 1 in
           match nth_error vlrs (Z.to_nat i) with
           | None => UB UBOutOfBounds
           | Some v =>
               if lenB (v_data v) <? v_size v then Ok (i, None)
               else if drs <? lenB comp + v_size v then UB UBOutOfBounds
               else gather fuel vlrs drs i (comp ++ firstn (Z.to_nat (v_size v)) (v_data v))
                      (if v_size v <=? unread then unread - v_size v else 0)
           end
       end.

(** index.cpp:514-707: the number of the last VLR read, the state, what the
    function returns, VLRDone *)
Definition filter_one_vlr (pts : list coords) (ix : idx) (q : query) (vlrs : list vlr) (i : Z) (v : vlr) (s : fstate) : outcome (Z * fstate * bool * bool) :=
  let ver := (1 <? ih_major (ix_h ix)) || (1 <=? ih_minor (ix_h ix)) in
  if v_size v =? 0 then UB UBOutOfBounds     (* &CompositeData[0] of an empty vector *)
  else if lenB (v_data v) <? v_size v then Ok (i, s, false, false)
  else
    let comp := firstn (Z.to_nat (v_size v)) (v_data v) in
    match get_n 4 comp 0, get_n 4 comp 4, get_n 4 comp 8, get_n 4 comp 12, get_n 4 comp 16, (if ver then get_n 4 comp 20 else Some 0) with
    | Some x0, Some y0, Some x1, Some y1, Some drs, Some npts =>
        let pos := if ver then 24 else 20 in
        let! (i, comp) := (if v_size v <? drs
                           then gather (S (length vlrs)) vlrs drs i comp (drs - v_size v)
                           else Ok (i, Some comp)) in
        match comp with
        | None => Ok (i, s, false, false)
        | Some comp =>
            if vlr_interesting q x0 y0 x1 y1 then
              let '(pos, ignore, vpts) := match fs_it s with
                                          | Some t => if pos <=? it_pos t then (it_pos t, it_cell t, it_vpts t) else (pos, 0, 0)
                                          | None => (pos, 0, 0)
                                          end in
              let! (v, ok) := scan_cells (S (length comp)) pts q ver comp drs ignore (mkV pos 0 s) in
              let s := vs_s v in
              if negb ok then Ok (i, s, false, false)
              else if ignore <=? vs_n v then
                let vpts := vpts + (vs_n v - ignore) in
                Ok (i, with_it s (fun t => mkIter (it_chunk t) (it_adv t) (it_vlr t) (it_pos t) (it_total t + (vs_n v - ignore)) (it_cell t) vpts (it_found t)),
                    true, npts <=? vpts)
              else Ok (i, s, true, false)
            else
              Ok (i, with_it s (fun t => mkIter (it_chunk t) (it_adv t) (it_vlr t) (it_pos t) (it_total t + npts) (it_cell t) (it_vpts t) (it_found t)),
                  true, match fs_it s with Some _ => true | None => false end)
        end
    | _, _, _, _, _, _ => Ok (i, s, false, false)
    end.

(** ** Filter *)

Definition filter_bounds (q : query) : bounds := [ax_r (q_x q); ax_r (q_y q); ax_r (q_z q)].
Definition index_bounds (h : ihead) : bounds := [ih_range_x h; ih_range_y h; ih_range_z h].
(** index.hpp:519 with the minimum version 1.2 *)
Definition iter_version (h : ihead) : bool :=
  (1 <? ih_major h) || ((ih_major h =? 1) && (2 <=? ih_minor h)).

(** index.cpp:275-327: the loop over the VLRs, from number [i].  The index, the
    query, the state and the number of the VLR it stopped at. *)
Fixpoint filter_loop (fuel : nat) (pts : list coords) (vlrs : list vlr) (ix : idx) (q : query) (i : Z) (s : fstate) : outcome (idx * query * fstate * Z) :=
  if lenB vlrs <=? i then Ok (ix, q, s, i)
  else match fuel with
  | O => UB UBDiverge
  | S fuel =>
      match nth_error vlrs (Z.to_nat i) with
      | None => UB UBOutOfBounds
      | Some v =>
          if zlist_eqb (vlr_get_user false v) liblas_user then
            if v_id v =? 42 then
              let! (ix, ok) := load_index_vlr ix v in
              if negb ok then Ok (ix, q, s, i)
              else
                let! q := set_cell_bounds ix q in
                let! meet := bounds_intersects (index_bounds (ix_h ix)) (filter_bounds q) in
                if negb meet then Ok (ix, q, s, i)
                else if match fs_it s with Some _ => negb (iter_version (ix_h ix)) | None => false end then Ok (ix, q, s, i)
                else filter_loop fuel pts vlrs ix q (i + 1) s
            else if v_id v =? ih_data (ix_h ix) then
              let! (j, s, ok, done) := filter_one_vlr pts ix q vlrs i v s in
              if negb ok then Ok (ix, q, s, j)
              else match fs_it s with
                   | None => filter_loop fuel pts vlrs ix q (j + 1) s
                   | Some t =>
                       let s := if done
                                then with_it s (fun t => mkIter (it_chunk t) (it_adv t) (it_vlr t) 0 (it_total t) 0 0 (it_found t))
                                else s in
                       if full s then Ok (ix, q, s, if done then j + 1 else i)
                       else filter_loop fuel pts vlrs ix q (j + 1) s
                   end
            else filter_loop fuel pts vlrs ix q (i + 1) s
          else filter_loop fuel pts vlrs ix q (i + 1) s
      end
  end.

(** index.cpp:260-338: the index, the query and the iterator afterwards, m_current
    and the list returned *)
Definition index_filter (pts : list coords) (vlrs : list vlr) (ix : idx) (q : query) (cur : Z) (it : option iter) : outcome (idx * query * fstate) :=
  let s := mkF [] cur it in
  if match it with Some t => ih_count (ix_h ix) <? (it_adv t + it_total t) mod 2 ^ 32 | None => false end
  then Ok (ix, q, s)
  else
    let! (ix, q, s, i) := filter_loop (S (length vlrs)) pts vlrs ix q (match it with Some t => it_vlr t | None => 0 end) s in
    Ok (ix, q, with_it s (fun t => mkIter (it_chunk t) (it_adv t) i (it_pos t) (it_total t) (it_cell t) (it_vpts t) (it_found t))).

(** ** IndexIterator *)

(** index.cpp:2121-2126 *)
Definition reset_position (t : iter) : iter := mkIter (it_chunk t) (it_adv t) 0 0 0 0 0 0.
(** index.cpp:2062-2089: a new iterator *)
Definition iter_new (chunk : Z) : iter := mkIter chunk 0 0 0 0 0 0 0.
Definition set_adv (t : iter) (a : Z) : iter :=
  mkIter (it_chunk t) a (it_vlr t) (it_pos t) (it_total t) (it_cell t) (it_vpts t) (it_found t).
(** index.cpp:2128-2147: operator()(n), n an int32 *)
Definition iter_at (pts : list coords) (vlrs : list vlr) (ix : idx) (q : query) (cur : Z) (t : iter) (n : Z) : outcome (idx * query * fstate) :=
  let t := if n <=? 0 then set_adv (reset_position t) 1
           else if n <? it_found t then set_adv (reset_position t) (n + 1)
           else set_adv t ((n - it_found t + 1) mod 2 ^ 32) in
  index_filter pts vlrs ix q cur (Some t).
(** index.cpp:2149-2154; the sum is an unsigned one converted to int32 *)
Definition iter_advance (pts : list coords) (vlrs : list vlr) (ix : idx) (q : query) (cur : Z) (t : iter) (n : Z) : outcome (idx * query * fstate) :=
  let n := if 0 <? n then n - 1 else n in
  iter_at pts vlrs ix q cur t (to_signed 32 (it_found t + n)).

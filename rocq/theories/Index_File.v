(** Model of how an Index finds, checks, rebuilds and saves the index of a file
    (/repo/src/index.cpp:63-251, 1030-1310, 1561-1597).

    Simplifications: those of Index_Build.v and Index_Query.v; the points a build
    or a query uses are read one after the other with ReadNextPoint after Seek(0)
    (the queries' own Seek and ReadNextPoint are in Index_Query.v); the output
    stream is empty at first; what the Index holds after a build that returned
    false is not modelled (the index from before is kept). *)
From Coq Require Import ZArith List Bool.
Import ListNotations.
From Verif Require Import Outcome Bytes CStr Float64 Vlr_Model Schema_Model Bounds_Model Header_Model Point_Model Stream_Model
  Reader_Model Reader_Api Writer_Model Writer_Api Index_Cell Index_Temp Index_Scan Index_Out Index_Query Index_Build.
Local Open Scope Z_scope.
Local Notation length := List.length (only parsing).

(** What the caller passes in IndexData: the three strings (a null pointer is the
    empty string, index.cpp:82-84), the z bin height and MaxPointsInMemory
    (1115-1116). *)
Record params := mkParams { pm_author : list Z; pm_comment : list Z; pm_date : list Z; pm_csz : f64; pm_maxmem : Z }.

(** ** Reading the points *)

(** point.cpp:385-411 for the three axes *)
Definition point_coords (p : point) : outcome coords :=
  let! x := get_x p in let! y := get_y p in let! z := get_z p in Ok (x, y, z).
(** index.cpp:1119-1123: while (m_reader->ReadNextPoint()) *)
Fixpoint next_coords (fuel : nat) (r : reader) : outcome (list coords * reader) :=
  match fuel with
  | O => UB UBDiverge
  | S f =>
      let (rf, a) := reader_next no_filter no_transform r tt in
      let! more := a in
      if (more : bool) then
        let! c := point_coords (r_point (fst rf)) in
        let! (l, r') := next_coords f (fst rf) in Ok (c :: l, r')
      else Ok ([], fst rf)
  end.
(** index.cpp:1038, 1119 *)
Definition all_coords (r : reader) : outcome (list coords * reader) :=
  let (r1, a) := reader_seek r 0 in
  let! _ := a in next_coords (S (Z.to_nat (r_size r1))) r1.

(** ** Saving *)

(** index.cpp:1566-1571 *)
Fixpoint copy_next (fuel : nat) (r : reader) (w : writer) : outcome (reader * writer) :=
  match fuel with
  | O => UB UBDiverge
  | S f =>
      let (rf, a) := reader_next no_filter no_transform r tt in
      let! more := a in
      if (more : bool) then let! w := write_point w (r_point (fst rf)) in copy_next f (fst rf) w
      else Ok (fst rf, w)
  end.
(** index.cpp:1561-1577 ([alone] = false) and 1579-1597 ([alone] = true); the file
    that is in the output stream when the writer has gone *)
Definition save_index (sv : schema -> vlr) (alone : bool) (r : reader) (h : header) : outcome (list Z) :=
  let! w := writer_new sv (os_open []) h in
  if alone then writer_close w
  else
    let (r1, a) := reader_seek r 0 in
    let! _ := a in
    let! (r2, w) := copy_next (S (Z.to_nat (r_size r1))) r1 w in writer_close w.
(** the catch clauses 1573-1575, 1593-1595 *)
Definition runtime_error (e : exn) : bool :=
  match e with ERuntime | ELiblas | EInvalidFormat | EInvalidPointData | EConfiguration => true | _ => false end.

(** ** Finding and checking *)

(** index.cpp:156-169: the first VLR "liblas" 42 is loaded, whatever LoadIndexVLR
    returns *)
Definition is_index_head (v : vlr) : bool := zlist_eqb (vlr_get_user false v) liblas_user && (v_id v =? 42).
Fixpoint find_index (n : nat) (vlrs : list vlr) (ix : idx) : outcome (idx * bool) :=
  match n with
  | O => Ok (ix, false)
  | S n =>
      match vlrs with
      | [] => UB UBOutOfBounds
      | v :: vlrs =>
          if is_index_head v then let! (ix, _) := load_index_vlr ix v in Ok (ix, true)
          else find_index n vlrs ix
      end
  end.

(** index.cpp:243, 1042: the bounds in the header of the point file *)
Definition header_ranges (h : header) : bounds :=
  [mkRange (x_of (h_min h)) (x_of (h_max h)); mkRange (y_of (h_min h)) (y_of (h_max h)); mkRange (z_of (h_min h)) (z_of (h_max h))].
(** index.cpp:235-251 *)
Definition validate (ph : header) (ix : idx) : outcome bool :=
  let! same := bounds_equal (index_bounds (ix_h ix)) (header_ranges ph) in
  Ok (same && (h_npts ph =? ih_count (ix_h ix))).

(** index.cpp:205-233: the loop runs to the number of VLRs there were at first,
    and goes to the next number after a deletion *)
Fixpoint clear_loop (n : nat) (i : Z) (vlrs : list vlr) (ix : idx) : outcome (idx * list vlr) :=
  match n with
  | O => Ok (ix, vlrs)
  | S n =>
      match nth_error vlrs (Z.to_nat i) with
      | None => UB UBOutOfBounds
      | Some v =>
          let without := firstn (Z.to_nat i) vlrs ++ skipn (S (Z.to_nat i)) vlrs in
          if zlist_eqb (vlr_get_user false v) liblas_user then
            if v_id v =? 42 then let! (ix, _) := load_index_vlr ix v in clear_loop n (i + 1) without ix
            else if v_id v =? ih_data (ix_h ix) then clear_loop n (i + 1) without ix
            else clear_loop n (i + 1) vlrs ix
          else clear_loop n (i + 1) vlrs ix
      end
  end.
Definition set_data_id (d : Z) (h : ihead) : ihead :=
  mkIHead (ih_major h) (ih_minor h) (ih_author h) (ih_comment h) (ih_date h) (ih_minx h) (ih_maxx h) (ih_miny h) (ih_maxy h) (ih_minz h) (ih_maxz h)
    d (ih_count h) (ih_cx h) (ih_cy h) (ih_cz h).
Definition clear_old (h : header) (ix : idx) : outcome (idx * header) :=
  let! (ix1, l) := clear_loop (Z.to_nat (h_nvlr h)) 0 (h_vlrs h) ix in
  Ok (with_h ix1 (set_data_id (ih_data (ix_h ix)) (ix_h ix1)), if (length l =? length (h_vlrs h))%nat then h else h_upd_vlrs h (Z.of_nat (length l)) l).

(** ** Building *)

(** header.cpp:515-521, for each VLR the output adds *)
Fixpoint add_vlrs (h : header) (l : list vlr) : header :=
  match l with [] => h | v :: l => add_vlrs (add_vlr h v) l end.
Definition job_of (pm : params) (ph ih : header) : job :=
  mkJob (mkRange (x_of (h_min ph)) (x_of (h_max ph))) (mkRange (y_of (h_min ph)) (y_of (h_max ph))) (mkRange (z_of (h_min ph)) (z_of (h_max ph)))
    (h_npts ph) (pm_author pm) (pm_comment pm) (pm_date pm) (pm_csz pm) (pm_maxmem pm) (h_vlrs ih).

(** What an Index is after IndexInit: the value returned, its members, its header
    (m_idxheader), the reader, and the file it saved, if any. *)
Record prepared := mkPrep { pr_ok : bool; pr_ix : idx; pr_hdr : header; pr_reader : reader; pr_saved : option (list Z) }.
(** index.cpp:1030-1310 *)
Definition build_save (sv : schema -> vlr) (pm : params) (alone : bool) (r : reader) (ih : header) (ix : idx) : outcome prepared :=
  let! (pts, r1) := all_coords r in
  let! b := build_index (job_of pm (r_hdr r) ih) pts in
  match b with
  | None => Ok (mkPrep false ix ih r1 None)
  | Some (h, vlrs) =>
      let ih2 := add_vlrs ih (skipn (length (h_vlrs ih)) vlrs) in
      let ix2 := mkIdx h (f64_sub (ih_maxx h) (ih_minx h)) (f64_sub (ih_maxy h) (ih_miny h)) (f64_sub (ih_maxz h) (ih_minz h)) in
      match save_index sv alone r1 ih2 with
      | Ok G => Ok (mkPrep true ix2 ih2 r1 (Some G))
      | Throw e => if runtime_error e then Ok (mkPrep false ix2 ih2 r1 None) else Throw e
      | UB u => UB u
      end
  end.

(** index.cpp:63-101, 136-203.  [r]: the reader of the points; [ir]: the reader of
    a stand-alone index file. *)
Definition index_init (sv : schema -> vlr) (pm : params) (force readonly alone : bool) (ix : idx) (r : reader) (ir : option reader) : outcome prepared :=
  let ih := match ir with Some q => r_hdr q | None => r_hdr r end in
  let! (ix, found) := find_index (Z.to_nat (h_nvlr ih)) (h_vlrs ih) ix in
  let! (ix, ih, valid) :=
    (if found then
       if force then let! (ix, ih) := clear_old ih ix in Ok (ix, ih, false)
       else let! ok := validate (r_hdr r) ix in Ok (ix, ih, ok)
     else Ok (ix, ih, false)) in
  if (valid : bool) then Ok (mkPrep true ix ih r None)
  else if readonly then Ok (mkPrep false ix ih r None)
  else build_save sv pm alone r ih ix.

(** index.cpp:106-128: a new Index, m_DataVLR_ID 43; its bounds (bounds.hpp, default
    ranges) are not looked at before they are set *)
Definition ix_new : idx := mkIdx (mkIHead 1 2 [] [] [] f64_zero f64_zero f64_zero f64_zero f64_zero f64_zero 43 0 0 0 0) f64_zero f64_zero f64_zero.

(** ** Programs *)

(** IndexData::SetBuildEmbedValues / SetBuildAloneValues (1889-1939: a new index is
    forced), Index::Prep: what is saved *)
Definition make_index (sv : schema -> vlr) (xml : vlr -> outcome schema) (doy year : Z) (pm : params) (force alone : bool) (F : list Z) : outcome (bool * option (list Z)) :=
  let! r := reader_open xml doy year F in
  let! p := index_init sv pm force false alone ix_new r None in Ok (pr_ok p, pr_saved p).
(** SetReadEmbedValues / SetReadAloneValues (1941-1988), Index::Prep,
    SetFilterValues, Index::Filter; None: the index is not accepted, or the box *)
Definition query_index (sv : schema -> vlr) (xml : vlr -> outcome schema) (doy year : Z) (F : list Z) (G : option (list Z)) (bx by_ bz : range) : outcome (option (list Z)) :=
  let! r := reader_open xml doy year F in
  let! ir := (match G with None => Ok None | Some G => let! q := reader_open xml doy year G in Ok (Some q) end) in
  let! p := index_init sv (mkParams [] [] [] f64_zero 0) false true false ix_new r ir in
  if pr_ok p then
    match set_filter_values (ix_h (pr_ix p)) bx by_ bz with
    | None => Ok None
    | Some (q, _) =>
        let! (pts, r1) := all_coords (pr_reader p) in
        let! (_, _, s) := index_filter pts (h_vlrs (pr_hdr p)) (pr_ix p) q (r_current r1) None in Ok (Some (fs_res s))
    end
  else Ok None.

(** Model of the translation loop of las2las and of the helpers of the command
    line tools it uses: /repo/apps/las2las.cpp:28-240 (start_writer, process),
    /repo/apps/laskernel.cpp:173-252 (FetchHeader, RewriteHeader, RepairHeader),
    /repo/src/utility.cpp:567-733 (class CoordinateSummary).
    Not modelled: option parsing, verbose output, transforms and --min-offset,
    compressed output, the names of the files (the result is the list of the
    files written, in the order they are started).  File creation succeeds. *)
From Coq Require Import ZArith List Bool String.
Import ListNotations.
From Verif Require Import Outcome Bytes Float64 Classif_Model Schema_Model Header_Model Vlr_Model Point_Model Stream_Model
  Reader_Model Writer_Model Writer_Api Summary_Model.
Local Open Scope Z_scope.

(** ** CoordinateSummary, utility.hpp:99-133.  [q_mm]: minimum and maximum (null
    before the first point).  m_header is never used for the result here
    (bHaveHeader is false: SetHeader is not called by the tools) and not
    modelled; bHaveColor, bHaveTime are not used at all. *)
Record csummary := mkCs { q_count : Z; q_returns : list Z; q_pulses : list Z; q_mm : option (point * point) }.
(** utility.cpp:567-579 *)
Definition cs_new : csummary := mkCs 0 (repeat 0 8) (repeat 0 8) None.
(** utility.cpp:614-673 AddPoint *)
Definition cs_add (q : csummary) (p : point) : outcome csummary :=
  let mm := match q_mm q with None => (p, p) | Some mm => mm end in
  let! mm := extend get_raw_x set_raw_x p mm in
  let! mm := extend get_raw_y set_raw_y p mm in
  let! mm := extend get_raw_z set_raw_z p mm in
  let! rn := get_return_number p in
  let! returns := incr_at (q_returns q) rn in
  let! nr := get_number_of_returns p in
  let! pulses := incr_at (q_pulses q) nr in
  Ok (mkCs (incr (q_count q)) returns pulses (Some mm)).

(** ** Numbers in a property tree.  [text] is what becomes of a double that is put
    into a property tree and got from it again (stream_translator.hpp:94-106,
    see Text_Model.v). *)

(** The coordinates of the minimum or maximum as RepairHeader gets them: through
    Point::GetPTree (point.cpp:294-348; the other entries of the tree only need
    the accessors not to fail and are left out). *)
Definition tree_coords (text : f64 -> outcome f64) (p : point) : outcome f64x3 :=
  let! x := get_x p in let! y := get_y p in let! z := get_z p in
  let! x := text x in let! y := text y in let! z := text z in Ok (x, y, z).
(** utility.cpp:683-733 GetPTree: the return counts in it.  Without points
    minimum and maximum are null. *)
Definition cs_returns (q : csummary) : list (Z * Z) :=
  let rets := match q_returns q with [] => [] | _ :: r => nonzero_from 1 r end in
  match rets with [] => [(1, q_count q)] | _ => rets end.

(** laskernel.cpp:203-252 RepairHeader *)
Fixpoint set_returns (h : header) (l : list (Z * Z)) : outcome header :=
  match l with
  | [] => Ok h
  | (i, c) :: l => let! h := set_by_return h (i - 1) c in set_returns h l
  end.
Definition zero_returns (h : header) : outcome header := set_returns h [(1, 0); (2, 0); (3, 0); (4, 0); (5, 0)].
Definition repair_header (text : f64 -> outcome f64) (q : csummary) (h : header) : outcome header :=
  if h_npts h =? 0 then Ok h
  else
    let! h := zero_returns h in
    match q_mm q with
    | None => UB UBNull
    | Some (mn, mx) =>
        let! (x, y, z) := tree_coords text mn in
        let h := set_min h x y z in
        let! (x, y, z) := tree_coords text mx in
        let h := set_max h x y z in
        let! h := zero_returns h in
        set_returns h (cs_returns q)
    end.

(** Environment of the tool: schema encoder and decoder (XML), date, text. *)
Record tool := mkTool {
  t_sv : schema -> vlr; t_xml : vlr -> outcome schema; t_doy : Z; t_year : Z; t_text : f64 -> outcome f64 }.

(** laskernel.cpp:173-188 FetchHeader, 189-201 RewriteHeader: a writer on the
    existing file that is closed without a point; 235-237 of las2las.cpp *)
Definition repair_file (t : tool) (q : csummary) (G : list Z) : outcome (list Z) :=
  let! r := reader_open (t_xml t) (t_doy t) (t_year t) G in
  let! h := repair_header (t_text t) q (r_hdr r) in
  write_session (t_sv t) G h [].

(** ** las2las.cpp:137-224: state of the loop.  [l_done]: files finished so far,
    the latest first; split_bytes_count is an int32_t, the subtraction is done
    in unsigned arithmetic (GetByteSize is a size_t) and converted back. *)
Record loop := mkLoop { l_w : writer; l_cs : csummary; l_bytes : Z; l_pts : Z; l_done : list (list Z) }.
(** 1024*1024*split_mb, as int32_t *)
Definition split_budget (split_mb : Z) : Z := to_signed 32 (1024 * 1024 * split_mb).
(** las2las.cpp:163-193, 195-223: close the file, start the next one, repair the
    old one *)
Definition next_file (t : tool) (h : header) (l : loop) (bytes pts : Z) : outcome loop :=
  let! G := writer_close (l_w l) in
  let! w := writer_new (t_sv t) (os_open []) h in
  let! G := repair_file t (l_cs l) G in
  Ok (mkLoop w cs_new bytes pts (G :: l_done l)).
(** las2las.cpp:139-223: one round *)
Definition one_point (t : tool) (h : header) (split_mb split_pts : Z) (l : loop) (p : point) : outcome loop :=
  let! q := cs_add (l_cs l) p in
  let! w := write_point (l_w l) p in
  let l := mkLoop w q (to_signed 32 (l_bytes l - schema_bytes (h_schema h))) ((l_pts l + 1) mod 2 ^ 32) (l_done l) in
  let! l := if (l_bytes l <? 0) && (0 <? split_mb) && (split_pts =? 0)
            then next_file t h l (split_budget split_mb) (l_pts l) else Ok l in
  if (0 <? split_pts) && (split_mb =? 0) && (l_pts l =? split_pts)
  then next_file t h l (l_bytes l) 0 else Ok l.
(** las2las.cpp:137: while (reader.ReadNextPoint()).  The result is undefined
    when the fuel is used up. *)
Fixpoint point_loop {FS} (t : tool) (h : header) (split_mb split_pts : Z) (flt : option (FS -> point -> bool * FS))
    (fuel : nat) (r : reader) (fs : FS) (l : loop) : outcome (reader * loop) :=
  match fuel with
  | O => UB UBDiverge
  | S k =>
      match reader_next flt (fun p => Ok (p_data p)) r fs with
      | ((r1, fs1), Ok true) =>
          let! l1 := one_point t h split_mb split_pts l (r_point r1) in
          point_loop t h split_mb split_pts flt k r1 fs1 l1
      | ((r1, fs1), Ok false) => Ok (r1, l)
      | (_, Throw e) => Throw e
      | (_, UB u) => UB u
      end
  end.

(** las2las.cpp:330-350 and 44-240: main without options that change the header,
    then process.  The header comes from a first reader. *)
Definition las2las {FS} (t : tool) (split_mb split_pts : Z) (flt : option (FS -> point -> bool * FS)) (fs : FS)
    (fuel : nat) (F : list Z) : outcome (list (list Z)) :=
  let! r0 := reader_open (t_xml t) (t_doy t) (t_year t) F in
  let h := r_hdr r0 in
  let! r := reader_open (t_xml t) (t_doy t) (t_year t) F in
  let! w := writer_new (t_sv t) (os_open []) h in
  let! (r1, l) := point_loop t h split_mb split_pts flt fuel r fs (mkLoop w cs_new (split_budget split_mb) 0 []) in
  let! G := writer_close (l_w l) in
  if (split_mb =? 0) && (split_pts =? 0)
  then let! _ := reader_reset (t_xml t) r1 in
       let! G := repair_file t (l_cs l) G in Ok [G]
  else Ok (rev (G :: l_done l)).

(** Model of point transforms in the reader and in las2las:
    /repo/apps/laskernel.cpp:3-30 (OptechScanAngleFixer), 1423-1445 (the options
    --point-translate and --fix-optech-scan-angle), /repo/src/detail/reader/
    reader.cpp:91-103 (TransformPoint), /repo/apps/las2las.cpp:352-385, 44-240.

    Simplifications: the options that change the header are in Hdropt_Model.v and
    not given here; the reprojection and colour transforms (GDAL) are not modelled;
    neither modelled transform changes the point's header, so bNeedHeaderCheck
    (reader.cpp:161-165) stays false. *)
From Coq Require Import ZArith List Bool String.
Import ListNotations.
From Verif Require Import Outcome Bytes Float64 Header_Model Point_Model Stream_Model Reader_Model Writer_Model Summary_Model Las2las_Model Transform_Model.
Local Open Scope Z_scope.
Local Notation length := List.length (only parsing).

(** laskernel.cpp:5-27: the literal 1.944445, the product, rounding, conversion to
    int32_t, and the two comparisons *)
Definition optech_factor : f64 := f64_of_bits 0x3FFF1C725C3DEE78.
Definition fix_angle (angle : Z) : outcome Z :=
  let da := f64_mul optech_factor (f64_of_Z angle) in
  let! new_a := f64_to_int32 (sround da) in
  Ok (if 127 <? new_a then 127 else if new_a <? -128 then -128 else new_a).
(** laskernel.cpp:3-30 *)
Definition optech_transform (p : point) : outcome point :=
  let! angle := get_scan_angle p in
  let! output := fix_angle angle in
  set_scan_angle p output.

(** reader.cpp:91-103 *)
Definition transformer := point -> outcome point.
Fixpoint transform_point (ts : list transformer) (p : point) : outcome point :=
  match ts with [] => Ok p | f :: r => let! q := f p in transform_point r q end.
(** as the reader model takes it *)
Definition transformed (ts : list transformer) (p : point) : outcome (list Z) :=
  let! q := transform_point ts p in Ok (p_data q).

(** laskernel.cpp:1423-1445; [wrap] as in Transform_Model *)
Record popts := mkPopts { o_translate : option string; o_optech : bool }.
Definition get_transforms (wrap : bool) (cast : string -> option f64) (o : popts) : outcome (list transformer) :=
  let! a := match o_translate o with Some s => let! ops := translation_new cast s in Ok [transform wrap ops] | None => Ok [] end in
  Ok (a ++ (if o_optech o then [optech_transform] else [])).

(** las2las.cpp:143-217: the loop of Las2las_Model with transforms set on the reader *)
Fixpoint point_loop_tr {FS} (t : tool) (h : header) (split_mb split_pts : Z) (flt : option (FS -> point -> bool * FS)) (ts : list transformer)
    (fuel : nat) (r : reader) (fs : FS) (l : loop) : outcome (reader * loop) :=
  match fuel with
  | O => UB UBDiverge
  | S k =>
      match reader_next flt (transformed ts) r fs with
      | ((r1, fs1), Ok true) =>
          let! l1 := one_point t h split_mb split_pts l (r_point r1) in
          point_loop_tr t h split_mb split_pts flt ts k r1 fs1 l1
      | ((r1, fs1), Ok false) => Ok (r1, l)
      | (_, Throw e) => Throw e
      | (_, UB u) => UB u
      end
  end.
(** las2las.cpp:330-385 and 44-240 *)
Definition las2las_tr {FS} (wrap : bool) (cast : string -> option f64) (t : tool) (o : popts) (split_mb split_pts : Z)
    (flt : option (FS -> point -> bool * FS)) (fs : FS) (fuel : nat) (F : list Z) : outcome (list (list Z)) :=
  let! r0 := reader_open (t_xml t) (t_doy t) (t_year t) F in
  let h := r_hdr r0 in
  let! ts := get_transforms wrap cast o in
  let! r := reader_open (t_xml t) (t_doy t) (t_year t) F in
  let! w := writer_new (t_sv t) (os_open []) h in
  let! (r1, l) := point_loop_tr t h split_mb split_pts flt ts fuel r fs (mkLoop w cs_new (split_budget split_mb) 0 []) in
  let! G := writer_close (l_w l) in
  if (split_mb =? 0) && (split_pts =? 0)
  then let! _ := reader_reset (t_xml t) r1 in
       let! G := repair_file t (l_cs l) G in Ok [G]
  else Ok (rev (G :: l_done l)).

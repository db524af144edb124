(** Model of las2las --min-offset: /repo/apps/las2las.cpp:44-182 and 229-240 (with
    min_offset, without splitting), /repo/apps/laskernel.cpp:1448-1470
    (SummarizeReader).
    Not modelled: verbose output, other options that change the header or the
    points, reprojection (las2las.cpp:91-109), splitting, compressed output.
    --min-offset together with --offset is refused by main before any of this
    (las2las.cpp:341-348). *)
From Coq Require Import ZArith List Bool String.
Import ListNotations.
From Verif Require Import Outcome Bytes Float64 Header_Model Point_Model Stream_Model Reader_Model Reader_Api Writer_Model Writer_Api Summary_Model Las2las_Model Lasinfo_Model.
Local Open Scope Z_scope.

(** laskernel.cpp:1460-1465: [while (read) ...], entered with a point read *)
Fixpoint summarize_loop {FS} (flt : option (FS -> point -> bool * FS)) (fuel : nat) (r : reader) (fs : FS) (u : summary) : outcome (reader * FS * summary) :=
  match fuel with
  | O => UB UBDiverge
  | S k =>
      let! u := summary_add u (r_point r) in
      match reader_next flt no_transform r fs with
      | ((r1, fs1), Ok true) => summarize_loop flt k r1 fs1 u
      | ((r1, fs1), Ok false) => Ok (r1, fs1, u)
      | (_, Throw e) => Throw e
      | (_, UB x) => UB x
      end
  end.
(** laskernel.cpp:1448-1470.  The summary is given no header.  Of its property tree
    (utility.cpp:323-391) the entries for the smallest point are kept; both points'
    trees are made (point.cpp:294-348). *)
Definition summarize_reader {FS} (t : tool) (flt : option (FS -> point -> bool * FS)) (fuel : nat) (r : reader) (fs : FS) : outcome (reader * FS * ptree_of_point) :=
  let! h0 := header_new (t_doy t) (t_year t) in
  let! r := reader_reset (t_xml t) r in
  match reader_next flt no_transform r fs with
  | ((r1, fs1), Ok true) =>
      let! (r2, fs2, u) := summarize_loop flt fuel r1 fs1 (summary_new h0) in
      let! rep := summary_report u in
      let! a := point_ptree (k_min rep) in
      let! _ := point_ptree (k_max rep) in
      Ok (r2, fs2, a)
  | (_, Ok false) => Throw ERuntime
  | (_, Throw e) => Throw e
  | (_, UB x) => UB x
  end.

(** las2las.cpp:143-182: the loop.  The counters for splitting are left out. *)
Fixpoint shift_loop {FS} (h : header) (flt : option (FS -> point -> bool * FS)) (fuel : nat) (r : reader) (fs : FS) (w : writer) (q : csummary) : outcome (reader * writer * csummary) :=
  match fuel with
  | O => UB UBDiverge
  | S k =>
      match reader_next flt no_transform r fs with
      | ((r1, fs1), Ok true) =>
          let! q := cs_add q (r_point r1) in
          let! p := set_header (r_point r1) h in
          let! w := write_point w p in
          shift_loop h flt k r1 fs1 w q
      | ((r1, fs1), Ok false) => Ok (r1, w, q)
      | (_, Throw e) => Throw e
      | (_, UB x) => UB x
      end
  end.
(** las2las.cpp:44-124, 229-240.  A missing entry of the tree cannot happen here. *)
Definition las2las_min {FS} (t : tool) (flt : option (FS -> point -> bool * FS)) (fs : FS) (fuel : nat) (F : list Z) : outcome (list Z) :=
  let! r0 := reader_open (t_xml t) (t_doy t) (t_year t) F in
  let! r := reader_open (t_xml t) (t_doy t) (t_year t) F in
  let! (r1, fs1, a) := summarize_reader t flt fuel r fs in
  let! x := t_text t (t_x a) in
  let! y := t_text t (t_y a) in
  let! z := t_text t (t_z a) in
  let h := set_offset (r_hdr r0) x y z in
  let! r2 := reader_reset (t_xml t) r1 in
  let! w := writer_new (t_sv t) (os_open []) h in
  let! (r3, w, q) := shift_loop h flt fuel r2 fs1 w cs_new in
  let! G := writer_close w in
  let! _ := reader_reset (t_xml t) r3 in
  repair_file t q G.

(** Model of apps/ts2las.cpp (TerraSolid .bin to LAS) over the models of streams,
    headers, points and the writer.

    Simplifications: the input opens and the output can be created; the host is
    little-endian; command line, messages and progress are left out.  The filters
    given on the command line are stored in the writer by Writer::SetFilters
    (ts2las.cpp:369), which never applies them (writer.cpp:106-110): they are left out. *)
From Coq Require Import ZArith List Bool String.
Import ListNotations.
From Verif Require Import Outcome Bytes Float64 CStr Classif_Model Vlr_Model Schema_Model Header_Model Point_Model Stream_Model Writer_Model.
Local Open Scope Z_scope.
Local Notation length := List.length (only parsing).

(** Little-endian members of a struct read as raw bytes (ts2las.hpp:16-115) *)
Definition member (b : list Z) (o w : nat) : Z := le_dec (firstn w (skipn o b)).
Definition smember (b : list Z) (o : nat) : Z := to_signed 32 (member b o 4).

(** ts2las.hpp:74-115: ScanHdr, 56 bytes *)
Definition hdr_version (b : list Z) : Z := smember b 4.
Definition hdr_tunniste (b : list Z) : Z := smember b 8.
Definition hdr_magic (b : list Z) : list Z := firstn 4 (skipn 12 b).
Definition hdr_count (b : list Z) : Z := smember b 16.
Definition hdr_units (b : list Z) : Z := smember b 20.
Definition hdr_org (b : list Z) (axis : nat) : f64 := f64_of_bits (member b (24 + 8 * axis) 8).
Definition hdr_time (b : list Z) : bool := negb (smember b 48 =? 0).
Definition hdr_color (b : list Z) : bool := negb (smember b 52 =? 0).

(** ts2las.cpp:134-156.  read_n is that of ts2las.hpp:165-184 with the checks of
    detail::read_n; the struct is zero before (make_unique<ScanHdr>, 340). *)
Definition known_version (v : Z) : bool :=
  (v =? 970404) || (v =? 20010129) || (v =? 20010712) || (v =? 20020715) || ((20020715 <? v) && (v <? 20051231)).
Definition read_scan_header (s : istream) : option (list Z * istream) :=
  match read_n s (repeat 0 56) with
  | Ok (b, s') =>
      if (hdr_tunniste b =? 970401) && zlist_eqb (hdr_magic b) (str "CXYZ") && known_version (hdr_version b)
      then Some (b, s') else None
  | _ => None
  end.

(** ts2las.cpp:85-132 *)
Definition bin_format (time color : bool) : Z :=
  if time then (if color then 3 else 1) else if color then 2 else 0.
Definition create_header (doy year : Z) (b : list Z) : outcome header :=
  let! h := header_new doy year in
  let! h := set_version_minor h 2 in
  let (h, r) := set_header_format h (bin_format (hdr_time b) (hdr_color b)) in
  let! _ := r in
  let scale := f64_div f64_one (f64_of_Z (hdr_units b)) in
  let h := set_scale h scale scale scale in
  let off k := f64_mul (f64_opp (hdr_org b k)) scale in
  let h := set_offset h (off 0%nat) (off 1%nat) (off 2%nat) in
  Ok (set_point_count h (hdr_count b)).

(** ts2las.hpp:16-71: what the program uses of a ScanPnt (20 bytes) and of a
    ScanRow (16 bytes); ts2las.cpp:188-194 *)
Record scan := mkScan { sc_x : Z; sc_y : Z; sc_z : Z; sc_code : Z; sc_echo : Z; sc_intensity : Z }.
Definition scan_pnt (b : list Z) : scan :=
  mkScan (smember b 0) (smember b 4) (smember b 8) (member b 12 1) (member b 13 1) (member b 18 2).
Definition scan_row (b : list Z) : scan :=
  mkScan (smember b 4) (smember b 8) (smember b 12) (member b 0 1)
         (Z.shiftr (member b 2 2) 14 mod 256) (Z.land (member b 2 2) 16383).
(** ts2las.cpp:167: only this version has ScanPnt records *)
Definition is_pnt (b : list Z) : bool := hdr_version b =? 20020715.

(** ts2las.cpp:242-256 *)
Definition set_echo (p : point) (echo : Z) : outcome point :=
  if echo =? 0 then let! p := set_number_of_returns p 1 in set_return_number p 1
  else if echo =? 1 then set_return_number p 1
  else if echo =? 3 then let! p := set_return_number p 2 in set_number_of_returns p 2
  else let! p := set_return_number p 2 in set_number_of_returns p 3.

(** 0.0002 (ts2las.cpp:215) *)
Definition tick : f64 := f64_of_bits 4551510721646314285.

(** ts2las.cpp:207-216 *)
Definition set_bin_time (s : istream) (p : point) : outcome (istream * point) :=
  let! (t, s) := read_uint s 4 (2 ^ 32 - 1) in
  let! p := set_time p (f64_mul (f64_of_Z t) tick) in Ok (s, p).
(** ts2las.cpp:217-232.  r, g and b are not initialised; a short read of one of
    them makes the next read throw, so their value is not used then. *)
Definition set_bin_color (s : istream) (p : point) : outcome (istream * point) :=
  let! (r, s) := read_uint s 1 0 in
  let! (b, s) := read_uint s 1 0 in
  let! (g, s) := read_uint s 1 0 in
  let! (a, s) := read_uint s 1 0 in
  let! p := set_color p (mkColor r g b) in Ok (s, p).

(** ts2las.cpp:164-267: one turn of the loop.  [old] is the struct *point or *row,
    which keeps its bytes from one turn to the next where a read is short.
    detail::read_n does not throw at the end of the file outside DEBUG builds, so the
    handlers for std::out_of_range are never entered; std::runtime_error is not
    caught.  An exception of WritePoint is caught. *)
Definition one_scan (b : list Z) (s : istream) (old : list Z) (w : writer) : outcome (istream * list Z * writer) :=
  let! (now, s) := read_n s old in
  let c := if is_pnt b then scan_pnt now else scan_row now in
  let p := point_new (w_hdr w) in
  let! p := set_raw_x p (sc_x c) in
  let! p := set_raw_y p (sc_y c) in
  let! p := set_raw_z p (sc_z c) in
  let! p := set_classification p (sc_code c) in
  let! p := set_intensity p (sc_intensity c) in
  let! (s, p) := (if hdr_time b then set_bin_time s p else Ok (s, p)) in
  let! (s, p) := (if hdr_color b then set_bin_color s p else Ok (s, p)) in
  let! p := set_echo p (sc_echo c) in
  match write_point w p with
  | Ok w' => Ok (s, now, w')
  | Throw _ => Ok (s, now, w)
  | UB u => UB u
  end.
(** ts2las.cpp:158-274: the count is converted to std::size_t *)
Fixpoint scan_loop (n : nat) (b : list Z) (s : istream) (old : list Z) (w : writer) : outcome writer :=
  match n with
  | O => Ok w
  | S m => let! (s, now, w) := one_scan b s old w in scan_loop m b s now w
  end.
Definition write_scans (b : list Z) (s : istream) (w : writer) : outcome writer :=
  scan_loop (Z.to_nat (hdr_count b mod 2 ^ 64)) b s (repeat 0 (if is_pnt b then 20 else 16)) w.

(** ts2las.cpp:291-386: the exit status and the output file; [Throw] is an
    exception that leaves main. *)
Definition ts2las (schema_vlr : schema -> vlr) (doy year : Z) (bin : list Z) : outcome (Z * list Z) :=
  match read_scan_header (is_open bin) with
  | None => Ok (1, [])
  | Some (b, s) =>
      let! h := create_header doy year b in
      let! w := writer_new schema_vlr (os_open []) h in
      let! w := write_scans b s w in
      let! F := writer_close w in
      Ok (0, F)
  end.

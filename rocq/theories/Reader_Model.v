(** Model of the uncompressed reader: /repo/src/detail/reader/header.cpp,
    reader.cpp and /repo/src/reader.cpp (NDEBUG, no LASzip).

    [xml_schema] stands for the XML schema parser (property_tree) applied to the
    first "liblas"/7 VLR; all theorems hold for every such function or concern
    files without that VLR.  Transforms that change the header of a point
    (reprojection) are outside the model, so [bNeedHeaderCheck] is false. *)
From Coq Require Import ZArith List Bool String.
Import ListNotations.
From Verif Require Import Outcome Bytes Float64 CStr Vlr_Model Schema_Model Header_Model Point_Model Stream_Model.
Local Open Scope Z_scope.

(** header.hpp: SetRecordsCount etc. used below are in Header_Model. *)

(** spatialreference.cpp:159-193 [IsGeoVLR] ([GetUserId(true).c_str()] is the
    text before the first NUL) *)
Definition is_geo_vlr (v : vlr) : bool :=
  let u := until_nul (vlr_get_user true v) in
  (zlist_eqb u (str "LASF_Projection") && ((v_id v =? 34735) || (v_id v =? 34736) || (v_id v =? 34737)))
  || (zlist_eqb u (str "liblas") && (v_id v =? 2112)).
(** spatialreference.cpp:134-151, header.cpp:643-646 *)
Definition set_srs (h : header) (vlrs : list vlr) : header :=
  mkHeader (h_sig h) (h_srcid h) (h_reserved h) (h_guid h) (h_vmaj h) (h_vmin h) (h_sysid h) (h_swid h) (h_doy h) (h_year h) (h_hsize h) (h_doff h) (h_nvlr h) (h_npts h) (h_byret h) (h_scale h) (h_offset h) (h_max h) (h_min h) (h_vlrs h) (filter is_geo_vlr vlrs) (h_schema h) (h_comp h) (h_pad h).

(** schema.cpp:574-585 *)
Definition is_schema_vlr (v : vlr) : bool :=
  zlist_eqb (vlr_get_user false v) (str "liblas") && (v_id v =? 7).
(** schema.cpp:547-572 *)
Definition schema_of_vlrs (xml_schema : vlr -> outcome schema) (l : list vlr) : outcome schema :=
  match find is_schema_vlr l with
  | None => Throw ERuntime
  | Some v => xml_schema v
  end.

(** The fields of the packed 54-byte VLRHeader struct, private_utility.hpp:144-151 *)
Definition vlrh_reserved (b : list Z) : Z := le_dec (firstn 2 b).
Definition vlrh_user (b : list Z) : list Z := firstn 16 (skipn 2 b).
Definition vlrh_id (b : list Z) : Z := le_dec (firstn 2 (skipn 18 b)).
Definition vlrh_length (b : list Z) : Z := le_dec (firstn 2 (skipn 20 b)).
Definition vlrh_desc (b : list Z) : list Z := firstn 32 (skipn 22 b).

(** detail/reader/header.cpp:366-392: one VLR.  [vlrh] is the local struct,
    uninitialised before the first iteration. *)
Definition read_vlr (s : istream) (vlrh : option (list Z)) : outcome (vlr * list Z * istream) :=
  if is_fail s then Throw ERuntime
  else
    let (bs, s1) := is_read s 54 in
    let! b := (match vlrh with
               | Some old => Ok (patch old bs)
               | None => if (List.length bs <? 54)%nat then UB UBUninit else Ok bs
               end) in
    let len := vlrh_length b in
    let! (d, s2) := (if 0 <? len then read_n s1 (repeat 0 (Z.to_nat len)) else Ok ([], s1)) in
    let v0 := vlr_set_reserved vlr_new (vlrh_reserved b) in
    let! v1 := vlr_set_user v0 (vlrh_user b) in
    let! v2 := vlr_set_desc v1 (vlrh_desc b) in
    Ok (vlr_set_data (vlr_set_id (vlr_set_size v2 len) (vlrh_id b)) d, b, s2).

Fixpoint read_vlr_loop (count : nat) (s : istream) (vlrh : option (list Z)) (h : header) : outcome (header * istream) :=
  match count with
  | O => Ok (h, s)
  | S m => let! (v, b, s1) := read_vlr s vlrh in read_vlr_loop m s1 (Some b) (add_vlr h v)
  end.

(** detail/reader/header.cpp:346-423.  The handler catches std::runtime_error,
    of which liblas_error is a subclass (exception.hpp:60-72). *)
Definition read_vlrs (xml_schema : vlr -> outcome schema) (s : istream) (h : header) : outcome (header * istream) :=
  let s0 := if is_eof s then is_clear s else s in
  let s1 := is_seek s0 (h_hsize h) in
  let count := h_nvlr h in
  let! (h1, s2) := read_vlr_loop (Z.to_nat count) s1 None (set_records_count h 0) in
  let h2 := set_srs h1 (h_vlrs h1) in
  let attempt := let! sc := schema_of_vlrs xml_schema (h_vlrs h2) in set_schema h2 sc in
  match attempt with
  | Ok h3 => Ok (h3, s2)
  | Throw ERuntime | Throw ELiblas | Throw EInvalidFormat | Throw EInvalidPointData | Throw EConfiguration =>
      let! sc := schema_new (get_format h2) in
      let! h3 := set_schema h2 sc in Ok (h3, s2)
  | Throw e => Throw e
  | UB u => UB u
  end.

(** detail/reader/header.cpp:201-224 *)
Fixpoint read_returns (k : nat) (i : Z) (s : istream) (h : header) : outcome (header * istream) :=
  match k with
  | O => Ok (h, s)
  | S m => let! (c, s1) := read_uint s 4 0 in
           let! h1 := set_by_return h i c in read_returns m (i + 1) s1 h1
  end.

(** detail/reader/header.cpp:273-287: bytes beyond the known fields become one
    dimension; the size is computed in int and converted to size_t *)
Definition add_extra (h : header) (record_length : Z) : outcome header :=
  if get_record_length h =? record_length then Ok h
  else
    let! d := dim_new "extra" (((record_length - get_record_length h) * 8) mod 2 ^ 64) in
    let extra := mkDim (d_name d) (d_bits d) false true true (d_signed d) false (d_pos d) (d_byteoff d) (d_bitoff d) in
    set_schema h (add_dimension (h_schema h) extra).

Definition set_fmt (h : header) (f : Z) : outcome header :=
  match set_header_format h f with (h', Ok _) => Ok h' | (_, Throw e) => Throw e | (_, UB u) => UB u end.

(** detail/reader/header.cpp:66-289 [ReadHeader] into the existing header [h];
    local variables keep their last value, as in the code. *)
Definition read_header (xml_schema : vlr -> outcome schema) (s : istream) (h : header) : outcome (header * istream) :=
  let s := is_seek s 0 in
  let! (fsig, s) := read_string s 4 in
  let! h := set_file_signature h fsig in
  let! (n2, s) := read_uint s 2 0 in
  let h := set_source_id h n2 in
  let! (n2, s) := read_uint s 2 n2 in
  let h := set_reserved h n2 in
  let! (d, s) := read_n s (repeat 0 16) in
  let h := h_upd_guid h d in
  let! (n1, s) := read_uint s 1 0 in
  let! h := set_version_major h n1 in
  let! (n1, s) := read_uint s 1 n1 in
  let! h := set_version_minor h n1 in
  let! (buf, s) := read_string s 32 in
  let! h := set_system_id h buf in
  let! (buf, s) := read_string s 32 in
  let! h := set_software_id h buf in
  let! (n2, s) := read_uint s 2 n2 in
  let h := set_creation_doy h n2 in
  let! (n2, s) := read_uint s 2 n2 in
  let h := set_creation_year h n2 in
  let! (n2, s) := read_uint s 2 n2 in
  let h := set_header_size h n2 in
  let! (n4, s) := read_uint s 4 0 in
  if n4 <? h_hsize h then Throw ERuntime else
  let h := set_data_offset h n4 in
  let! (n4, s) := read_uint s 4 n4 in
  let h := set_records_count h n4 in
  let! (n1, s) := read_uint s 1 n1 in
  let bit7 := Z.testbit n1 7 in
  let bit6 := Z.testbit n1 6 in
  let! h := (if negb bit7 && negb bit6 then Ok (h_upd_comp h false)
             else if bit7 && negb bit6 then Ok (h_upd_comp h true) else Throw EDomain) in
  let f := Z.land n1 63 in
  let! h := (if f <=? 5 then set_fmt h f else Throw EDomain) in
  let! (n2, s) := read_uint s 2 n2 in
  let record_length := n2 in
  let! (n4, s) := read_uint s 4 n4 in
  let h := set_point_count h n4 in
  let! (h, s) := read_returns 5 0 s h in
  let z := f64_zero in
  let! (x1, s) := read_f64 s z in
  let! (y1, s) := read_f64 s z in
  let! (z1, s) := read_f64 s z in
  let h := set_scale h x1 y1 z1 in
  let! (x1, s) := read_f64 s x1 in
  let! (y1, s) := read_f64 s y1 in
  let! (z1, s) := read_f64 s z1 in
  let h := set_offset h x1 y1 z1 in
  let! (x1, s) := read_f64 s x1 in
  let! (x2, s) := read_f64 s z in
  let! (y1, s) := read_f64 s y1 in
  let! (y2, s) := read_f64 s z in
  let! (z1, s) := read_f64 s z1 in
  let! (z2, s) := read_f64 s z in
  let h := set_max h x1 y1 z1 in
  let h := set_min h x2 y2 z2 in
  let! (h, s) := (if 0 <? h_nvlr h then read_vlrs xml_schema s h else Ok (h, s)) in
  let! b := vlr_block_size h in
  let h := set_header_padding h (h_doff h - (h_hsize h + b)) in
  let s := if is_eof s then is_clear s else s in
  let s := is_seek s (h_doff h) in
  let! h := add_extra h record_length in
  Ok (h, s).

(** ** ReaderImpl (detail/reader/reader.hpp:60-130, reader.cpp)

    [m_header] and the header reader's header are one object (reader.cpp:134),
    and the point refers to it, so the point is its data plus [r_hdr].

    The installed filters are one step function [flt : FS -> point -> bool * FS]
    on the state of all of them (FilterPoint, reader.cpp:105-123; [None] is an
    empty list), the transforms one function [tr] (reader.cpp:91-102) that may
    throw. *)
Record reader := mkRd {
  r_is : istream; r_hdr : header; r_data : list Z;
  r_size : Z; r_current : Z; r_recsize : Z }.

Definition r_point (r : reader) : point := mkPoint (r_data r) (r_hdr r).
Definition rd_stream (r : reader) (s : istream) : reader :=
  mkRd s (r_hdr r) (r_data r) (r_size r) (r_current r) (r_recsize r).
Definition rd_read (r : reader) (s : istream) (d : list Z) (cur : Z) : reader :=
  mkRd s (r_hdr r) d (r_size r) cur (r_recsize r).
Definition rd_data (r : reader) (d : list Z) : reader :=
  mkRd (r_is r) (r_hdr r) d (r_size r) (r_current r) (r_recsize r).

(** reader.cpp:79-89 *)
Definition impl_reset (s : istream) (h : header) (d : list Z) : reader :=
  mkRd (is_seek (is_clear s) 0) h d (h_npts h) 0 (schema_bytes (h_schema h)).

(** reader.cpp:127-143, header [h0] and point data [d0] before the call.  The
    point's old header is the object that is being re-read. *)
Definition impl_read_header (xml_schema : vlr -> outcome schema) (s : istream) (h0 : header) (d0 : list Z) : outcome reader :=
  let s := if is_eof s then is_clear s else s in
  let! (h, s1) := read_header xml_schema s h0 in
  if h_comp h then Throw ERuntime
  else let! p := set_header (mkPoint d0 h) h in
       Ok (impl_reset s1 h (p_data p)).

(** reader.cpp:59-72 and src/reader.cpp:64-68, 166-169: constructor *)
Definition reader_open (xml_schema : vlr -> outcome schema) (doy year : Z) (data : list Z) : outcome reader :=
  let! h := header_new doy year in
  impl_read_header xml_schema (is_open data) h (repeat 0 (Z.to_nat (get_record_length h))).
(** src/reader.cpp:171-174 *)
Definition reader_reset (xml_schema : vlr -> outcome schema) (r : reader) : outcome reader :=
  impl_read_header xml_schema (r_is r) (r_hdr r) (r_data r).

(** [detail::read_n(m_point->GetData().front(), m_ifs, m_record_size)] *)
Definition read_record (s : istream) (d : list Z) (n : nat) : outcome (list Z * istream) :=
  match d with
  | [] => UB UBOutOfBounds                      (* front() of an empty vector *)
  | _ => if is_fail s then Throw ERuntime
         else let (bs, s1) := is_read s n in
              if (List.length d <? List.length bs)%nat then UB UBOutOfBounds
              else Ok (patch d bs, s1)
  end.

(** read one record and count it; a runtime_error becomes an out_of_range *)
Definition read_counted (r : reader) : reader * outcome unit :=
  match read_record (r_is r) (r_data r) (Z.to_nat (r_recsize r)) with
  | Ok (d, s) => (rd_read r s d ((r_current r + 1) mod 2 ^ 32), Ok tt)
  | Throw _ => (r, Throw EOutOfRange)
  | UB u => (r, UB u)
  end.

(** reader.cpp:199-219: [while (!FilterPoint) { read; if (m_current == m_size) {last = true; break;} }] *)
Fixpoint filter_loop {FS} (flt : FS -> point -> bool * FS) (fuel : nat) (r : reader) (fs : FS)
  : (reader * FS) * outcome bool :=
  match fuel with
  | O => ((r, fs), UB UBDiverge)
  | S fuel' =>
      let (keep, fs1) := flt fs (r_point r) in
      if keep then ((r, fs1), Ok false)
      else match read_counted r with
           | (r1, Ok _) => if r_current r1 =? r_size r1 then ((r1, fs1), Ok true) else filter_loop flt fuel' r1 fs1
           | (r1, Throw e) => ((r1, fs1), Throw e)
           | (r1, UB u) => ((r1, fs1), UB u)
           end
  end.

(** reader.cpp:151-234.  The boolean result of the filtering part is bLastPoint. *)
Definition filtered_part {FS} (flt : option (FS -> point -> bool * FS)) (r : reader) (fs : FS)
  : (reader * FS) * outcome bool :=
  match flt with
  | None => ((r, fs), Ok false)
  | Some f =>
      let (keep, fs1) := f fs (r_point r) in
      if keep then ((r, fs1), Ok false)
      else match read_counted r with
           | (r1, Ok _) => filter_loop f (List.length (is_data (r_is r1)) + 3) r1 fs1
           | (r1, Throw e) => ((r1, fs1), Throw e)
           | (r1, UB u) => ((r1, fs1), UB u)
           end
  end.
Definition impl_next {FS} (flt : option (FS -> point -> bool * FS)) (tr : point -> outcome (list Z))
    (r0 : reader) (fs : FS) : (reader * FS) * outcome unit :=
  let r := if r_current r0 =? 0
           then rd_stream r0 (is_seek (is_clear (r_is r0)) (h_doff (r_hdr r0))) else r0 in
  if r_size r <=? r_current r then ((r, fs), Throw EOutOfRange)
  else match read_counted r with
       | (r1, Ok _) =>
           match filtered_part flt r1 fs with
           | ((r2, fs2), Ok last) =>
               match tr (r_point r2) with
               | Ok d => ((rd_data r2 d, fs2), if last then Throw EOutOfRange else Ok tt)
               | Throw e => ((r2, fs2), Throw e)
               | UB u => ((r2, fs2), UB u)
               end
           | ((r2, fs2), Throw e) => ((r2, fs2), Throw e)
           | ((r2, fs2), UB u) => ((r2, fs2), UB u)
           end
       | (r1, Throw e) => ((r1, fs), Throw e)
       | (r1, UB u) => ((r1, fs), UB u)
       end.

(** src/reader.cpp:106-119: out_of_range means "no more points" *)
Definition reader_next {FS} (flt : option (FS -> point -> bool * FS)) (tr : point -> outcome (list Z))
    (r : reader) (fs : FS) : (reader * FS) * outcome bool :=
  match impl_next flt tr r fs with
  | (rf, Ok _) => (rf, Ok true)
  | (rf, Throw EOutOfRange) => (rf, Ok false)
  | (rf, Throw e) => (rf, Throw e)
  | (rf, UB u) => (rf, UB u)
  end.

(** reader.cpp:236-264; the position is computed in std::streamsize (int64) *)
Definition impl_at (tr : point -> outcome (list Z)) (r : reader) (n : Z) : reader * outcome unit :=
  if r_size r =? n then (r, Throw EOutOfRange)
  else if r_size r <? n then (r, Throw ERuntime)
  else
    let s := is_seek (is_clear (r_is r)) (n * get_record_length (r_hdr r) + h_doff (r_hdr r)) in
    match read_record s (r_data r) (Z.to_nat (r_recsize r)) with
    | Ok (d, s1) =>
        let r1 := rd_read r s1 d (r_current r) in
        match tr (r_point r1) with
        | Ok d1 => (rd_data r1 d1, Ok tt)
        | Throw e => (r1, Throw e)
        | UB u => (r1, UB u)
        end
    | Throw e => (rd_stream r s, Throw e)
    | UB u => (rd_stream r s, UB u)
    end.
(** src/reader.cpp:121-137 *)
Definition reader_at (tr : point -> outcome (list Z)) (r : reader) (n : Z) : reader * outcome bool :=
  if h_npts (r_hdr r) <=? n then (r, Throw EOutOfRange)
  else match impl_at tr r n with
       | (r1, Ok _) => (r1, Ok true)
       | (r1, Throw EOutOfRange) => (r1, Ok false)
       | (r1, Throw e) => (r1, Throw e)
       | (r1, UB u) => (r1, UB u)
       end.
(** src/reader.cpp:154-169 [operator[]] *)
Definition reader_index (tr : point -> outcome (list Z)) (r : reader) (n : Z) : reader * outcome (list Z) :=
  if h_npts (r_hdr r) <=? n then (r, Throw EOutOfRange)
  else match reader_at tr r n with
       | (r1, Ok true) => (r1, Ok (r_data r1))
       | (r1, Ok false) => (r1, Throw EOutOfRange)
       | (r1, Throw e) => (r1, Throw e)
       | (r1, UB u) => (r1, UB u)
       end.

(** reader.cpp:266-282 and src/reader.cpp:139-152 (assert is off) *)
Definition reader_seek (r : reader) (n : Z) : reader * outcome bool :=
  if r_size r =? n then (r, Ok false)
  else if r_size r <? n then (r, Throw ERuntime)
  else
    let s := is_seek (is_clear (r_is r)) (n * get_record_length (r_hdr r) + h_doff (r_hdr r)) in
    (mkRd s (r_hdr r) (r_data r) (r_size r) (n mod 2 ^ 32) (r_recsize r), Ok true).

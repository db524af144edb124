(** Model of the uncompressed writer: /repo/src/detail/writer/header.cpp,
    point.cpp, writer.cpp and /repo/src/writer.cpp, in a build without LASzip
    (HAVE_LASZIP undefined) and with NDEBUG.

    The VLR that carries a custom schema contains an XML text produced by
    property_tree; it is the parameter [schema_vlr]. *)
From Coq Require Import ZArith List Bool String.
Import ListNotations.
From Verif Require Import Outcome Bytes Float64 CStr Vlr_Model Schema_Model Header_Model Point_Model Stream_Model.
Local Open Scope Z_scope.

Definition le8 (z : Z) : list Z := le_enc 8 z.
Definition le4 (z : Z) : list Z := le_enc 4 z.
Definition le2 (z : Z) : list Z := le_enc 2 z.
Definition le1 (z : Z) : list Z := le_enc 1 z.
Definition led (x : f64) : list Z := le_enc 8 (f64_bits x).

(** detail/writer/header.cpp:217-235: the first three GUID fields are byte
    swapped *)
Definition guid_swap (d : list Z) : list Z :=
  match d with
  | a0 :: a1 :: a2 :: a3 :: a4 :: a5 :: a6 :: a7 :: r => a3 :: a2 :: a1 :: a0 :: a5 :: a4 :: a7 :: a6 :: r
  | _ => d
  end.

(** detail/writer/header.cpp:178-300: the pieces written one after the other.
    The version test at 204-213 writes the reserved field over four bytes for
    version x.0. *)
Definition header_chunks (h : header) : list (list Z) :=
  [ get_file_signature h ] ++
  (if h_vmin h =? 0 then [ le4 (h_reserved h) ] else [ le2 (h_srcid h); le2 (h_reserved h) ]) ++
  [ guid_swap (h_guid h); le1 (h_vmaj h); le1 (h_vmin h);
    get_system_id true h; get_software_id true h;
    le2 (h_doy h); le2 (h_year h); le2 (h_hsize h); le4 (h_doff h); le4 (h_nvlr h);
    le1 (if h_comp h then Z.lor (get_format h mod 256) 128 else get_format h mod 256);
    le2 (get_record_length h); le4 (h_npts h);
    List.concat (map le4 (firstn 5 (h_byret h)));
    led (x_of (h_scale h)); led (y_of (h_scale h)); led (z_of (h_scale h));
    led (x_of (h_offset h)); led (y_of (h_offset h)); led (z_of (h_offset h));
    led (x_of (h_max h)); led (x_of (h_min h));
    led (y_of (h_max h)); led (y_of (h_min h));
    led (z_of (h_max h)); led (z_of (h_min h)) ].

(** detail/writer/header.cpp:373-376 *)
Definition required_header_size (h : header) : outcome Z :=
  let! b := vlr_block_size h in Ok (to_signed 32 (b + h_hsize h)).

(** detail/writer/header.cpp:351-367: one VLR *)
Definition vlr_chunks (v : vlr) : list (list Z) :=
  [ le2 (v_reserved v); vlr_get_user true v; le2 (v_id v); le2 (v_size v); vlr_get_desc true v; v_data v ].
(** detail/writer/header.cpp:349-368: loop over the record count *)
Fixpoint write_vlr_loop (n : nat) (l : list vlr) (s : ostream) : outcome ostream :=
  match n with
  | O => Ok s
  | S m => match l with
           | [] => UB UBOutOfBounds
           | v :: r => let! s1 := os_write_all s (vlr_chunks v) in write_vlr_loop m r s1
           end
  end.
(** detail/writer/header.cpp:326-371 *)
Definition write_vlrs (s : ostream) (h : header) : outcome (ostream * header) :=
  let s1 := os_seek s (h_hsize h) in
  let! req := required_header_size h in
  let! (s2, h2) :=
    (if to_signed 32 (h_doff h - req) <? 0 then
       let h1 := set_data_offset h req in
       let! s3 := os_write (os_seek s1 96) (le4 (h_doff h1)) in
       Ok (os_seek s3 (h_hsize h1), h1)
     else Ok (s1, h)) in
  let! s4 := write_vlr_loop (Z.to_nat (h_nvlr h2)) (h_vlrs h2) s2 in
  Ok (s4, h2).

(** detail/writer/header.cpp:378-409 *)
Definition write_pad_signature (s : ostream) (h : header) : outcome (ostream * header) :=
  if 0 <? h_vmin h then Ok (s, h)
  else
    let! req := required_header_size h in
    let! (s1, h1) :=
      (if to_signed 32 (h_doff h - req) <? 2 then
         let h1 := set_data_offset h (h_doff h + 2) in
         let! s2 := os_write (os_seek s 96) (le4 (h_doff h1)) in Ok (s2, h1)
       else Ok (s, h)) in
    let! s3 := os_write (os_seek s1 ((h_doff h1 - 2) mod 2 ^ 32)) [204] in
    let! s4 := os_write s3 [221] in
    Ok (s4, h1).

(** detail/writer/header.cpp:145-172 *)
Definition new_padding (h : header) : outcome Z :=
  let! b := vlr_block_size h in
  let existing := to_signed 32 (h_doff h - (b + h_hsize h)) in
  if existing <? 0
  then
    if existing =? - 2 ^ 31 then UB UBIntOverflow
    else
      let d := - existing in
      if d <? to_signed 32 b then Ok 0 else Ok ((d - b) mod 2 ^ 32)
  else
    if h_pad h <=? existing then Ok existing else Ok ((h_pad h + existing) mod 2 ^ 32).

(** detail/writer/header.cpp:104-176: what happens to the header before a new
    file is written *)
Definition prepare_header (schema_vlr : schema -> vlr) (h : header) : outcome header :=
  let h1 := set_georeference (delete_vlrs h (str "liblas") 2112) in
  let h2 := if is_custom (h_schema h1)
            then add_vlr (delete_vlrs h1 (str "liblas") 7) (schema_vlr (h_schema h1)) else h1 in
  if h_comp h2 then Throw EConfiguration
  else
    let h3 := delete_vlrs h2 (str "laszip encoded") 22204 in
    let! p := new_padding h3 in
    let h4 := set_header_padding h3 p in
    let! b := vlr_block_size h4 in
    Ok (set_data_offset h4 (h_hsize h4 + b + h_pad h4)).

(** The string literal "\0" has two bytes; asking for more reads outside it. *)
Definition literal_zeros (n : Z) : outcome (list Z) :=
  if n <=? 2 then Ok (repeat 0 (Z.to_nat n)) else UB UBOutOfBounds.

(** detail/writer/header.cpp:74-324.  [count] is the writer's point counter. *)
Definition write_header (schema_vlr : schema -> vlr) (s : ostream) (h : header) (count : Z)
  : outcome (ostream * header * Z) :=
  let append := negb (Nat.eqb (List.length (os_data s)) 0) in
  let! (s0, h0, c0) :=
    (if append then Ok (os_seek s 0, h, h_npts h)
     else let! h1 := prepare_header schema_vlr h in Ok (os_seek_end (os_seek s 0) 0, h1, count)) in
  let! s1 := os_write_all s0 (header_chunks h0) in
  let! (s2, h2) :=
    (if append then Ok (s1, h0)
     else
       let! (sv, hv) := write_vlrs s1 h0 in
       let! sp :=
         (if 0 <? h_pad hv
          then let! b := vlr_block_size hv in
               let! z := literal_zeros (h_pad hv) in
               os_write (os_seek_end sv ((h_hsize hv + b) mod 2 ^ 32)) z
          else Ok sv) in
       write_pad_signature sp hv) in
  if negb (c0 =? 0) then Ok (os_seek_end s2 0, h2, c0) else Ok (os_seek s2 (h_doff h2), h2, c0).

(** writer.hpp: WriterImpl *)
Record writer := mkWriter { w_os : ostream; w_hdr : header; w_count : Z }.

(** src/writer.cpp:59-71, detail/writer/writer.cpp:66-73 *)
Definition writer_write_header (schema_vlr : schema -> vlr) (w : writer) : outcome writer :=
  let! (s, h, c) := write_header schema_vlr (w_os w) (w_hdr w) (w_count w) in Ok (mkWriter s h c).
Definition writer_new (schema_vlr : schema -> vlr) (s : ostream) (h : header) : outcome writer :=
  writer_write_header schema_vlr (mkWriter s h 0).

(** detail/writer/point.cpp:89-95: [GetDataRecordLength()] bytes from the front
    of the point's record *)
Definition write_point (w : writer) (p : point) : outcome writer :=
  let n := Z.to_nat (get_record_length (w_hdr w)) in
  match p_data p with
  | [] => UB UBOutOfBounds
  | _ => if (List.length (p_data p) <? n)%nat then UB UBOutOfBounds
         else let! s := os_write (w_os w) (firstn n (p_data p)) in
              Ok (mkWriter s (w_hdr w) ((w_count w + 1) mod 2 ^ 32))
  end.

(** detail/writer/writer.cpp:75-88 *)
Definition update_point_count (w : writer) (count : Z) : outcome writer :=
  let out := if count =? 0 then w_count w else count in
  let h := set_point_count (w_hdr w) out in
  if os_fail (w_os w) then Ok (mkWriter (w_os w) h (w_count w))
  else let! s := os_write (os_seek (w_os w) 107) (le4 out) in Ok (mkWriter s h (w_count w)).

(** detail/writer/writer.cpp:99-113: the destructor *)
Definition writer_close (w : writer) : outcome (list Z) :=
  match update_point_count w (w_count w) with
  | Ok w' => Ok (os_data (w_os w'))
  | Throw ERuntime => Ok (os_data (w_os w))
  | Throw e => Throw e
  | UB u => UB u
  end.

(** Specification vocabulary for LAS files: the public header block of LAS
    1.0-1.2 as a table of byte ranges, the image of a VLR, of a record block.
    Independent of the reader and the writer model. *)
From Coq Require Import ZArith List Bool String.
Import ListNotations.
From Verif Require Import Outcome Bytes Float64 CStr Vlr_Model Schema_Model Header_Model Stream_Proofs.
Local Open Scope Z_scope.
Local Notation length := List.length (only parsing).

(** Unsigned little-endian integer of [w] bytes at offset [o] of a file. *)
Definition u_at (F : list Z) (o w : nat) : Z := le_dec (slice F o w).

(** The values of the public header block, except the project id. *)
Record pubhdr := mkPub {
  ph_sig : list Z; ph_source : Z; ph_reserved : Z; ph_vmaj : Z; ph_vmin : Z;
  ph_sysid : list Z; ph_swid : list Z; ph_doy : Z; ph_year : Z; ph_hsize : Z;
  ph_doff : Z; ph_nvlr : Z; ph_format : Z; ph_reclen : Z; ph_npts : Z; ph_returns : list Z;
  ph_scale : Z * Z * Z; ph_offset : Z * Z * Z; ph_max : Z * Z * Z; ph_min : Z * Z * Z }.

(** LAS 1.1/1.2 "public header block" table: offsets and widths.  Doubles are
    given by their bit pattern. *)
Definition pub_of_file (F : list Z) : pubhdr :=
  mkPub (slice F 0 4) (u_at F 4 2) (u_at F 6 2) (u_at F 24 1) (u_at F 25 1)
        (until_nul (slice F 26 32)) (until_nul (slice F 58 32))
        (u_at F 90 2) (u_at F 92 2) (u_at F 94 2) (u_at F 96 4) (u_at F 100 4)
        (u_at F 104 1) (u_at F 105 2) (u_at F 107 4)
        [u_at F 111 4; u_at F 115 4; u_at F 119 4; u_at F 123 4; u_at F 127 4]
        (u_at F 131 8, u_at F 139 8, u_at F 147 8) (u_at F 155 8, u_at F 163 8, u_at F 171 8)
        (u_at F 179 8, u_at F 195 8, u_at F 211 8) (u_at F 187 8, u_at F 203 8, u_at F 219 8).

Definition bits3 (t : f64x3) : Z * Z * Z := (f64_bits (x_of t), f64_bits (y_of t), f64_bits (z_of t)).

(** The same values as the accessors of a header object return them. *)
Definition pub_of_header (h : header) : pubhdr :=
  mkPub (get_file_signature h) (h_srcid h) (h_reserved h) (h_vmaj h) (h_vmin h)
        (get_system_id false h) (get_software_id false h)
        (h_doy h) (h_year h) (h_hsize h) (h_doff h) (h_nvlr h) (get_format h) (get_record_length h)
        (h_npts h) (firstn 5 (h_byret h))
        (bits3 (h_scale h)) (bits3 (h_offset h)) (bits3 (h_max h)) (bits3 (h_min h)).

(** Image of a VLR in a file (LAS 1.2, "variable length record header"). *)
Definition vlr_image (v : vlr) : list Z :=
  le_enc 2 (v_reserved v) ++ pad_to 16 (until_nul (v_user v)) ++ le_enc 2 (v_id v) ++
  le_enc 2 (Z.of_nat (length (v_data v))) ++ pad_to 32 (until_nul (v_desc v)) ++ v_data v.
Definition vlrs_image (l : list vlr) : list Z := List.concat (map vlr_image l).
(** What a user sees of a VLR. *)
Definition vlr_view (v : vlr) : list Z * Z * list Z * Z * Z * list Z :=
  (vlr_get_user false v, v_id v, vlr_get_desc false v, v_reserved v, v_size v, v_data v).

(** Bytes a list of VLRs occupies. *)
Definition vlrs_size (l : list vlr) : Z :=
  fold_right (fun v s => 54 + Z.of_nat (length (v_data v)) + s) 0 l.

(** User id and record id of a VLR. *)
Definition has_id (name : String.string) (id : Z) (v : vlr) : bool :=
  zlist_eqb (until_nul (v_user v)) (str name) && (v_id v =? id).
(** Coordinate-system VLRs: GeoTIFF keys and the OGC WKT record. *)
Definition is_crs (v : vlr) : bool :=
  has_id "LASF_Projection" 34735 v || has_id "LASF_Projection" 34736 v ||
  has_id "LASF_Projection" 34737 v || has_id "liblas" 2112 v.
(** The VLRs a new file gets: the header's own ones except coordinate-system,
    compression and (if the record layout is customised) schema ones, then those
    of the spatial reference, then the schema. *)
Definition written_vlrs (schema_vlr : schema -> vlr) (h : header) : list vlr :=
  filter (fun v => negb (is_crs v) && negb (has_id "laszip encoded" 22204 v)
                   && negb (is_custom (h_schema h) && has_id "liblas" 7 v)) (h_vlrs h)
  ++ h_srs h ++ (if is_custom (h_schema h) then [schema_vlr (h_schema h)] else []).

(** A header a new file can be written from: an uncompressed layout, VLRs whose
    declared length is their payload size, a header size of at least 227, no
    padding requested, and a block that fits. *)
Definition fresh_ok (schema_vlr : schema -> vlr) (h : header) : Prop :=
  let L := written_vlrs schema_vlr h in
  header_wf h /\ h_comp h = false /\
  Forall (fun v => is_crs v = true) (h_srs h) /\
  (is_custom (h_schema h) = true ->
     vlr_wf (schema_vlr (h_schema h)) /\ has_id "liblas" 7 (schema_vlr (h_schema h)) = true) /\
  Forall (fun v => vlr_wf v /\ v_size v = Z.of_nat (length (v_data v))) L /\
  227 <= h_hsize h /\ h_hsize h + vlrs_size L + 2 < 2 ^ 31 /\
  h_hsize h <= h_doff h <= h_hsize h + vlrs_size L /\
  (h_doff h = h_hsize h + vlrs_size L -> h_pad h = 0).

(** [D], and if [T] is not empty, [T] at offset [p]; zeros in between. *)
Definition then_at (D : list Z) (p : nat) (T : list Z) : list Z :=
  match T with [] => D | _ => D ++ repeat 0 (p - length D) ++ T end.

(** The two bytes that end the header area of a version 1.0 file. *)
Definition pad_sig (vmin : Z) : list Z := if vmin =? 0 then [204; 221] else [].

(** The VLR at offset [p] of a file, and the [n] VLRs one after the other from
    there (LAS 1.2, "variable length record header": reserved, user id, record
    id, length after header, description, payload). *)
Definition vlr_len_at (F : list Z) (p : nat) : nat := Z.to_nat (u_at F (p + 20) 2).
Definition vlr_at (F : list Z) (p : nat) : vlr :=
  mkVlr (slice F (p + 54) (vlr_len_at F p)) (slice F (p + 22) 32) (slice F (p + 2) 16)
        (u_at F p 2) (u_at F (p + 18) 2) (u_at F (p + 20) 2).
Definition vlr_end (F : list Z) (p : nat) : nat := (p + 54 + vlr_len_at F p)%nat.
Fixpoint vlrs_at (n : nat) (F : list Z) (p : nat) : list vlr :=
  match n with O => [] | S m => vlr_at F p :: vlrs_at m F (vlr_end F p) end.
Fixpoint vlrs_end (n : nat) (F : list Z) (p : nat) : nat :=
  match n with O => p | S m => vlrs_end m F (vlr_end F p) end.

(** The VLRs of a file: as many as the header declares, from the end of the
    header block on. *)
Definition file_vlrs (F : list Z) : list vlr := vlrs_at (Z.to_nat (u_at F 100 4)) F (Z.to_nat (u_at F 94 2)).
Definition file_vlrs_end (F : list Z) : nat := vlrs_end (Z.to_nat (u_at F 100 4)) F (Z.to_nat (u_at F 94 2)).

(** A file the reader has to accept: signature, version 1.0-1.3, data offset not
    inside the header, point format 0-3 without compression bits, and all
    declared VLRs present. *)
Definition las_file (F : list Z) : Prop :=
  bytes_ok F /\ (227 <= length F)%nat /\ slice F 0 4 = str "LASF" /\ u_at F 24 1 = 1 /\ u_at F 25 1 <= 3 /\
  u_at F 94 2 <= u_at F 96 4 /\ u_at F 104 1 <= 3 /\
  (0 < u_at F 100 4 -> (file_vlrs_end F <= length F)%nat).
(** No VLR carries a serialised custom schema. *)
Definition no_schema_vlr (F : list Z) : Prop := Forall (fun v => has_id "liblas" 7 v = false) (file_vlrs F).

(** A header of a supported kind: signature, version 1.0-1.3, format 0-3, a
    non-empty record. *)
Definition las_header (h : header) : Prop :=
  h_sig h = str "LASF" /\ h_vmaj h = 1 /\ h_vmin h <= 3 /\ 0 <= get_format h <= 3 /\ 0 < get_record_length h.
(** No schema VLR is written (standard layout, none added by hand). *)
Definition no_schema_written (schema_vlr : schema -> vlr) (h : header) : Prop :=
  Forall (fun v => has_id "liblas" 7 v = false) (written_vlrs schema_vlr h).
(** Offset of the first record: right after header, VLRs and (version 1.0) the
    two signature bytes. *)
Definition data_start (schema_vlr : schema -> vlr) (h : header) : Z :=
  h_hsize h + vlrs_size (written_vlrs schema_vlr h) + Z.of_nat (length (pad_sig (h_vmin h))).
(** What the header block of a file written from [h] with [n] points should say;
    source id and reserved word are parameters. *)
Definition expected_pub (schema_vlr : schema -> vlr) (h : header) (n src res : Z) : pubhdr :=
  mkPub (get_file_signature h) src res (h_vmaj h) (h_vmin h)
        (get_system_id false h) (get_software_id false h)
        (h_doy h) (h_year h) (h_hsize h) (data_start schema_vlr h) (Z.of_nat (length (written_vlrs schema_vlr h)))
        (get_format h) (get_record_length h) n (firstn 5 (h_byret h))
        (bits3 (h_scale h)) (bits3 (h_offset h)) (bits3 (h_max h)) (bits3 (h_min h)).

(** The same header values with another point count. *)
Definition with_count (p : pubhdr) (n : Z) : pubhdr :=
  mkPub (ph_sig p) (ph_source p) (ph_reserved p) (ph_vmaj p) (ph_vmin p) (ph_sysid p) (ph_swid p) (ph_doy p) (ph_year p)
        (ph_hsize p) (ph_doff p) (ph_nvlr p) (ph_format p) (ph_reclen p) n (ph_returns p)
        (ph_scale p) (ph_offset p) (ph_max p) (ph_min p).
(** ... and with other source id and reserved word. *)
Definition with_source (p : pubhdr) (src res : Z) : pubhdr :=
  mkPub (ph_sig p) src res (ph_vmaj p) (ph_vmin p) (ph_sysid p) (ph_swid p) (ph_doy p) (ph_year p)
        (ph_hsize p) (ph_doff p) (ph_nvlr p) (ph_format p) (ph_reclen p) (ph_npts p) (ph_returns p)
        (ph_scale p) (ph_offset p) (ph_max p) (ph_min p).

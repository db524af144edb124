(** Model of Header (/repo/src/header.cpp, /repo/include/liblas/header.hpp).

    Simplifications: the extent [Bounds<double>] is represented by its three
    minima and maxima (it has dimension 0 or 3; the accessors of an empty one
    return 0, bounds.hpp:285-316); of the spatial reference only the VLRs it
    produces are kept ([h_srs]); the creation date of a new header, which the
    code takes from the clock (header.cpp:548-556), is a parameter. *)
From Coq Require Import ZArith List Bool String.
Import ListNotations.
From Verif Require Import Outcome Bytes Float64 CStr Vlr_Model Schema_Model.
Local Open Scope Z_scope.

Definition f64x3 : Type := (f64 * f64 * f64)%type.
Definition x_of (t : f64x3) : f64 := fst (fst t).
Definition y_of (t : f64x3) : f64 := snd (fst t).
Definition z_of (t : f64x3) : f64 := snd t.

(** header.hpp:404-432 *)
Record header := mkHeader {
  h_sig : list Z;        (* char[4] *)
  h_srcid : Z;           (* uint16 *)
  h_reserved : Z;        (* uint16 *)
  h_guid : list Z;       (* 16 bytes *)
  h_vmaj : Z;            (* uint8 *)
  h_vmin : Z;            (* uint8 *)
  h_sysid : list Z;      (* char[32] *)
  h_swid : list Z;       (* char[32] *)
  h_doy : Z;             (* uint16 *)
  h_year : Z;            (* uint16 *)
  h_hsize : Z;           (* uint16 *)
  h_doff : Z;            (* uint32 *)
  h_nvlr : Z;            (* uint32 *)
  h_npts : Z;            (* uint32 *)
  h_byret : list Z;      (* 7 x uint32 *)
  h_scale : f64x3;
  h_offset : f64x3;
  h_max : f64x3;
  h_min : f64x3;
  h_vlrs : list vlr;
  h_srs : list vlr;
  h_schema : schema;
  h_comp : bool;
  h_pad : Z }.           (* uint32 *)

(** field updates *)
Definition h_upd_sig h v := mkHeader v (h_srcid h) (h_reserved h) (h_guid h) (h_vmaj h) (h_vmin h) (h_sysid h) (h_swid h) (h_doy h) (h_year h) (h_hsize h) (h_doff h) (h_nvlr h) (h_npts h) (h_byret h) (h_scale h) (h_offset h) (h_max h) (h_min h) (h_vlrs h) (h_srs h) (h_schema h) (h_comp h) (h_pad h).
Definition h_upd_srcid h v := mkHeader (h_sig h) v (h_reserved h) (h_guid h) (h_vmaj h) (h_vmin h) (h_sysid h) (h_swid h) (h_doy h) (h_year h) (h_hsize h) (h_doff h) (h_nvlr h) (h_npts h) (h_byret h) (h_scale h) (h_offset h) (h_max h) (h_min h) (h_vlrs h) (h_srs h) (h_schema h) (h_comp h) (h_pad h).
Definition h_upd_reserved h v := mkHeader (h_sig h) (h_srcid h) v (h_guid h) (h_vmaj h) (h_vmin h) (h_sysid h) (h_swid h) (h_doy h) (h_year h) (h_hsize h) (h_doff h) (h_nvlr h) (h_npts h) (h_byret h) (h_scale h) (h_offset h) (h_max h) (h_min h) (h_vlrs h) (h_srs h) (h_schema h) (h_comp h) (h_pad h).
Definition h_upd_guid h v := mkHeader (h_sig h) (h_srcid h) (h_reserved h) v (h_vmaj h) (h_vmin h) (h_sysid h) (h_swid h) (h_doy h) (h_year h) (h_hsize h) (h_doff h) (h_nvlr h) (h_npts h) (h_byret h) (h_scale h) (h_offset h) (h_max h) (h_min h) (h_vlrs h) (h_srs h) (h_schema h) (h_comp h) (h_pad h).
Definition h_upd_vmaj h v := mkHeader (h_sig h) (h_srcid h) (h_reserved h) (h_guid h) v (h_vmin h) (h_sysid h) (h_swid h) (h_doy h) (h_year h) (h_hsize h) (h_doff h) (h_nvlr h) (h_npts h) (h_byret h) (h_scale h) (h_offset h) (h_max h) (h_min h) (h_vlrs h) (h_srs h) (h_schema h) (h_comp h) (h_pad h).
Definition h_upd_vmin h v := mkHeader (h_sig h) (h_srcid h) (h_reserved h) (h_guid h) (h_vmaj h) v (h_sysid h) (h_swid h) (h_doy h) (h_year h) (h_hsize h) (h_doff h) (h_nvlr h) (h_npts h) (h_byret h) (h_scale h) (h_offset h) (h_max h) (h_min h) (h_vlrs h) (h_srs h) (h_schema h) (h_comp h) (h_pad h).
Definition h_upd_sysid h v := mkHeader (h_sig h) (h_srcid h) (h_reserved h) (h_guid h) (h_vmaj h) (h_vmin h) v (h_swid h) (h_doy h) (h_year h) (h_hsize h) (h_doff h) (h_nvlr h) (h_npts h) (h_byret h) (h_scale h) (h_offset h) (h_max h) (h_min h) (h_vlrs h) (h_srs h) (h_schema h) (h_comp h) (h_pad h).
Definition h_upd_swid h v := mkHeader (h_sig h) (h_srcid h) (h_reserved h) (h_guid h) (h_vmaj h) (h_vmin h) (h_sysid h) v (h_doy h) (h_year h) (h_hsize h) (h_doff h) (h_nvlr h) (h_npts h) (h_byret h) (h_scale h) (h_offset h) (h_max h) (h_min h) (h_vlrs h) (h_srs h) (h_schema h) (h_comp h) (h_pad h).
Definition h_upd_doy h v := mkHeader (h_sig h) (h_srcid h) (h_reserved h) (h_guid h) (h_vmaj h) (h_vmin h) (h_sysid h) (h_swid h) v (h_year h) (h_hsize h) (h_doff h) (h_nvlr h) (h_npts h) (h_byret h) (h_scale h) (h_offset h) (h_max h) (h_min h) (h_vlrs h) (h_srs h) (h_schema h) (h_comp h) (h_pad h).
Definition h_upd_year h v := mkHeader (h_sig h) (h_srcid h) (h_reserved h) (h_guid h) (h_vmaj h) (h_vmin h) (h_sysid h) (h_swid h) (h_doy h) v (h_hsize h) (h_doff h) (h_nvlr h) (h_npts h) (h_byret h) (h_scale h) (h_offset h) (h_max h) (h_min h) (h_vlrs h) (h_srs h) (h_schema h) (h_comp h) (h_pad h).
Definition h_upd_hsize h v := mkHeader (h_sig h) (h_srcid h) (h_reserved h) (h_guid h) (h_vmaj h) (h_vmin h) (h_sysid h) (h_swid h) (h_doy h) (h_year h) v (h_doff h) (h_nvlr h) (h_npts h) (h_byret h) (h_scale h) (h_offset h) (h_max h) (h_min h) (h_vlrs h) (h_srs h) (h_schema h) (h_comp h) (h_pad h).
Definition h_upd_doff h v := mkHeader (h_sig h) (h_srcid h) (h_reserved h) (h_guid h) (h_vmaj h) (h_vmin h) (h_sysid h) (h_swid h) (h_doy h) (h_year h) (h_hsize h) v (h_nvlr h) (h_npts h) (h_byret h) (h_scale h) (h_offset h) (h_max h) (h_min h) (h_vlrs h) (h_srs h) (h_schema h) (h_comp h) (h_pad h).
Definition h_upd_vlrs h n v := mkHeader (h_sig h) (h_srcid h) (h_reserved h) (h_guid h) (h_vmaj h) (h_vmin h) (h_sysid h) (h_swid h) (h_doy h) (h_year h) (h_hsize h) (h_doff h) n (h_npts h) (h_byret h) (h_scale h) (h_offset h) (h_max h) (h_min h) v (h_srs h) (h_schema h) (h_comp h) (h_pad h).
Definition h_upd_npts h v := mkHeader (h_sig h) (h_srcid h) (h_reserved h) (h_guid h) (h_vmaj h) (h_vmin h) (h_sysid h) (h_swid h) (h_doy h) (h_year h) (h_hsize h) (h_doff h) (h_nvlr h) v (h_byret h) (h_scale h) (h_offset h) (h_max h) (h_min h) (h_vlrs h) (h_srs h) (h_schema h) (h_comp h) (h_pad h).
Definition h_upd_byret h v := mkHeader (h_sig h) (h_srcid h) (h_reserved h) (h_guid h) (h_vmaj h) (h_vmin h) (h_sysid h) (h_swid h) (h_doy h) (h_year h) (h_hsize h) (h_doff h) (h_nvlr h) (h_npts h) v (h_scale h) (h_offset h) (h_max h) (h_min h) (h_vlrs h) (h_srs h) (h_schema h) (h_comp h) (h_pad h).
Definition h_upd_scale h v := mkHeader (h_sig h) (h_srcid h) (h_reserved h) (h_guid h) (h_vmaj h) (h_vmin h) (h_sysid h) (h_swid h) (h_doy h) (h_year h) (h_hsize h) (h_doff h) (h_nvlr h) (h_npts h) (h_byret h) v (h_offset h) (h_max h) (h_min h) (h_vlrs h) (h_srs h) (h_schema h) (h_comp h) (h_pad h).
Definition h_upd_offset h v := mkHeader (h_sig h) (h_srcid h) (h_reserved h) (h_guid h) (h_vmaj h) (h_vmin h) (h_sysid h) (h_swid h) (h_doy h) (h_year h) (h_hsize h) (h_doff h) (h_nvlr h) (h_npts h) (h_byret h) (h_scale h) v (h_max h) (h_min h) (h_vlrs h) (h_srs h) (h_schema h) (h_comp h) (h_pad h).
Definition h_upd_max h v := mkHeader (h_sig h) (h_srcid h) (h_reserved h) (h_guid h) (h_vmaj h) (h_vmin h) (h_sysid h) (h_swid h) (h_doy h) (h_year h) (h_hsize h) (h_doff h) (h_nvlr h) (h_npts h) (h_byret h) (h_scale h) (h_offset h) v (h_min h) (h_vlrs h) (h_srs h) (h_schema h) (h_comp h) (h_pad h).
Definition h_upd_min h v := mkHeader (h_sig h) (h_srcid h) (h_reserved h) (h_guid h) (h_vmaj h) (h_vmin h) (h_sysid h) (h_swid h) (h_doy h) (h_year h) (h_hsize h) (h_doff h) (h_nvlr h) (h_npts h) (h_byret h) (h_scale h) (h_offset h) (h_max h) v (h_vlrs h) (h_srs h) (h_schema h) (h_comp h) (h_pad h).
Definition h_upd_schema h v := mkHeader (h_sig h) (h_srcid h) (h_reserved h) (h_guid h) (h_vmaj h) (h_vmin h) (h_sysid h) (h_swid h) (h_doy h) (h_year h) (h_hsize h) (h_doff h) (h_nvlr h) (h_npts h) (h_byret h) (h_scale h) (h_offset h) (h_max h) (h_min h) (h_vlrs h) (h_srs h) v (h_comp h) (h_pad h).
Definition h_upd_comp h v := mkHeader (h_sig h) (h_srcid h) (h_reserved h) (h_guid h) (h_vmaj h) (h_vmin h) (h_sysid h) (h_swid h) (h_doy h) (h_year h) (h_hsize h) (h_doff h) (h_nvlr h) (h_npts h) (h_byret h) (h_scale h) (h_offset h) (h_max h) (h_min h) (h_vlrs h) (h_srs h) (h_schema h) v (h_pad h).
Definition h_upd_pad h v := mkHeader (h_sig h) (h_srcid h) (h_reserved h) (h_guid h) (h_vmaj h) (h_vmin h) (h_sysid h) (h_swid h) (h_doy h) (h_year h) (h_hsize h) (h_doff h) (h_nvlr h) (h_npts h) (h_byret h) (h_scale h) (h_offset h) (h_max h) (h_min h) (h_vlrs h) (h_srs h) (h_schema h) (h_comp h) v.

(** header.hpp:383-392 *)
Definition eFileSignatureSize : nat := 4.
Definition eSystemIdSize : nat := 32.
Definition eSoftwareIdSize : nat := 32.
Definition ePointsByReturnSize : nat := 7.
Definition eHeaderSize : Z := 227.
(** header.cpp:72-74 *)
Definition FileSignature : list Z := str "LASF".
Definition SystemIdentifier : list Z := str "libLAS".
Definition SoftwareIdentifier : list Z := str "libLAS 1.8.2".
(** version.hpp:82-85 *)
Definition eVersionMajorMin : Z := 1.
Definition eVersionMajorMax : Z := 1.
Definition eVersionMinorMax : Z := 3.

(** header.cpp:77-80 [Header()] and 540-588 [Init()] *)
Definition header_new (doy year : Z) : outcome header :=
  let! sc := schema_new 3 in
  let z := f64_zero in
  Ok (mkHeader (strncpy eFileSignatureSize FileSignature) 0 0 (repeat 0 16) 1 2
        (strncpy eSystemIdSize SystemIdentifier) (strncpy eSoftwareIdSize SoftwareIdentifier)
        (doy mod 2 ^ 16) (year mod 2 ^ 16) eHeaderSize eHeaderSize 0 0
        (repeat 0 ePointsByReturnSize) (f64_one, f64_one, f64_one) (z, z, z) (z, z, z) (z, z, z)
        [] [] sc false 0).

(** header.cpp:193-199 *)
Definition set_file_signature (h : header) (v : list Z) : outcome header :=
  if zlist_eqb (firstn eFileSignatureSize v) FileSignature
  then Ok (h_upd_sig h (strncpy eFileSignatureSize v)) else Throw EInvalidArgument.
(** header.cpp:188-191 *)
Definition get_file_signature (h : header) : list Z := h_sig h.

(** header.cpp:206-228: integer setters store the argument converted to the
    parameter type *)
Definition set_source_id (h : header) (v : Z) : header := h_upd_srcid h (v mod 2 ^ 16).
Definition set_reserved (h : header) (v : Z) : header := h_upd_reserved h (v mod 2 ^ 16).
(** header.cpp:241-247 *)
Definition set_version_major (h : header) (v : Z) : outcome header :=
  if (v <? eVersionMajorMin) || (eVersionMajorMax <? v) then Throw EOutOfRange else Ok (h_upd_vmaj h v).
(** header.cpp:254-262 *)
Definition set_version_minor (h : header) (v : Z) : outcome header :=
  if eVersionMinorMax <? v then Throw EOutOfRange else Ok (h_upd_vmin h v).

(** header.cpp:264-278, 289-302 *)
Definition get_system_id (pad : bool) (h : header) : list Z :=
  let tmp := until_nul (h_sysid h) in
  if pad && (List.length tmp <? eSystemIdSize)%nat then pad_to eSystemIdSize tmp else tmp.
Definition get_software_id (pad : bool) (h : header) : list Z :=
  let tmp := until_nul (h_swid h) in
  if pad && (List.length tmp <? eSoftwareIdSize)%nat then pad_to eSoftwareIdSize tmp else tmp.
(** header.cpp:280-287, 304-312 *)
Definition set_system_id (h : header) (v : list Z) : outcome header :=
  if (eSystemIdSize <? List.length v)%nat then Throw EInvalidArgument
  else Ok (h_upd_sysid h (strncpy eSystemIdSize v)).
Definition set_software_id (h : header) (v : list Z) : outcome header :=
  if (eSoftwareIdSize <? List.length v)%nat then Throw EInvalidArgument
  else Ok (h_upd_swid h (strncpy eSoftwareIdSize v)).

Definition set_creation_doy (h : header) (v : Z) : header := h_upd_doy h (v mod 2 ^ 16).
Definition set_creation_year (h : header) (v : Z) : header := h_upd_year h (v mod 2 ^ 16).
Definition set_header_size (h : header) (v : Z) : header := h_upd_hsize h (v mod 2 ^ 16).
Definition set_data_offset (h : header) (v : Z) : header := h_upd_doff h (v mod 2 ^ 32).
Definition set_header_padding (h : header) (v : Z) : header := h_upd_pad h (v mod 2 ^ 32).
Definition set_records_count (h : header) (v : Z) : header := h_upd_vlrs h (v mod 2 ^ 32) (h_vlrs h).
Definition set_point_count (h : header) (v : Z) : header := h_upd_npts h (v mod 2 ^ 32).

(** header.cpp:359-370 with [GetVLR(i)] = [m_vlrs[i]] unchecked (523-526):
    loops over the record count, not over the vector *)
Fixpoint vlr_sizes (n : nat) (l : list vlr) : outcome Z :=
  match n with
  | O => Ok 0
  | S m => match l with
           | [] => UB UBOutOfBounds
           | v :: r => let! s := vlr_sizes m r in Ok ((vlr_total_size v mod 2 ^ 32 + s) mod 2 ^ 32)
           end
  end.
Definition vlr_block_size (h : header) : outcome Z := vlr_sizes (Z.to_nat (h_nvlr h)) (h_vlrs h).

(** header.cpp:387-397 *)
Definition get_format (h : header) : Z := s_format (h_schema h).
Definition set_header_format (h : header) (v : Z) : header * outcome unit :=
  let (s, r) := set_format (h_schema h) v in (h_upd_schema h s, r).
(** header.cpp:399-403 *)
Definition get_record_length (h : header) : Z := schema_bytes (h_schema h) mod 2 ^ 16.

(** header.cpp:415-427 [SetPointRecordsByReturnCount]: [at(index)] *)
Fixpoint list_set {A} (l : list A) (n : nat) (x : A) : list A :=
  match l, n with
  | [], _ => []
  | _ :: r, O => x :: r
  | y :: r, S m => y :: list_set r m x
  end.
Definition set_by_return (h : header) (index v : Z) : outcome header :=
  if (0 <=? index) && (index <? Z.of_nat (List.length (h_byret h)))
  then Ok (h_upd_byret h (list_set (h_byret h) (Z.to_nat index) (v mod 2 ^ 32)))
  else Throw EOutOfRange.

(** header.cpp:445-452, 469-472, 504-514 *)
Definition set_scale (h : header) (x y z : f64) : header := h_upd_scale h (x, y, z).
Definition set_offset (h : header) (x y z : f64) : header := h_upd_offset h (x, y, z).
Definition set_max (h : header) (x y z : f64) : header := h_upd_max h (x, y, z).
Definition set_min (h : header) (x y z : f64) : header := h_upd_min h (x, y, z).

(** header.cpp:517-521 *)
Definition add_vlr (h : header) (v : vlr) : header :=
  h_upd_vlrs h ((h_nvlr h + 1) mod 2 ^ 32) (h_vlrs h ++ [v]).
(** header.cpp:523-526 *)
Definition get_vlr (h : header) (i : Z) : outcome vlr :=
  match nth_error (h_vlrs h) (Z.to_nat i) with Some v => Ok v | None => UB UBOutOfBounds end.
(** header.cpp:533-543 *)
Definition delete_vlr (h : header) (i : Z) : outcome header :=
  if Z.of_nat (List.length (h_vlrs h)) <=? i then Throw EOutOfRange
  else let l := firstn (Z.to_nat i) (h_vlrs h) ++ skipn (S (Z.to_nat i)) (h_vlrs h) in
       Ok (h_upd_vlrs h (Z.of_nat (List.length l) mod 2 ^ 32) l).
(** header.cpp:597-605 *)
Definition same_vlr (name : list Z) (id : Z) (v : vlr) : bool :=
  zlist_eqb (vlr_get_user false v) name && (v_id v =? id).
(** header.cpp:608-617 *)
Definition delete_vlrs (h : header) (name : list Z) (id : Z) : header :=
  let l := filter (fun v => negb (same_vlr name id v)) (h_vlrs h) in
  h_upd_vlrs h (Z.of_nat (List.length l) mod 2 ^ 32) l.
(** header.cpp:621-636 *)
Definition set_georeference (h : header) : header :=
  let h1 := delete_vlrs h (str "LASF_Projection") 34735 in
  let h2 := delete_vlrs h1 (str "LASF_Projection") 34736 in
  let h3 := delete_vlrs h2 (str "LASF_Projection") 34737 in
  fold_left add_vlr (h_srs h) h3.

(** header.cpp:654-684: the X, Y and Z dimensions are re-added (their scale and
    offset members are not represented); a missing X throws, a missing Y or Z
    dereferences an empty optional. *)
Definition set_schema (h : header) (s : schema) : outcome header :=
  match get_dimension s "X" with
  | None => Throw ELiblas
  | Some x =>
      let s1 := add_dimension s x in
      match get_dimension s1 "Y" with
      | None => UB UBNull
      | Some y =>
          let s2 := add_dimension s1 y in
          match get_dimension s2 "Z" with
          | None => UB UBNull
          | Some z => Ok (h_upd_schema h (add_dimension s2 z))
          end
      end
  end.

(** Equality of headers, header.cpp:157-186.  [m_signature], [m_systemId] and
    [m_softwareId] are char arrays: [!=] compares their addresses, which differ
    for distinct objects.  [same_object] says whether both operands are one
    object. *)
Definition f64x3_eq (a b : f64x3) : bool :=
  compare_distance (x_of a) (x_of b) && compare_distance (y_of a) (y_of b) && compare_distance (z_of a) (z_of b).
Definition header_eq (same_object : bool) (a b : header) : outcome bool :=
  if same_object then Ok true
  else if negb (f64x3_eq (h_scale a) (h_scale b)) then Ok false
  else if negb (f64x3_eq (h_offset a) (h_offset b)) then Ok false
  else (* m_signature != other.m_signature: array addresses *) Ok false.

(** C++ type invariant of a header object. *)
Definition header_wf (h : header) : Prop :=
  List.length (h_sig h) = eFileSignatureSize /\ bytes_ok (h_sig h) /\
  in_unsigned 16 (h_srcid h) /\ in_unsigned 16 (h_reserved h) /\
  List.length (h_guid h) = 16%nat /\ bytes_ok (h_guid h) /\
  in_unsigned 8 (h_vmaj h) /\ in_unsigned 8 (h_vmin h) /\
  List.length (h_sysid h) = eSystemIdSize /\ bytes_ok (h_sysid h) /\
  List.length (h_swid h) = eSoftwareIdSize /\ bytes_ok (h_swid h) /\
  in_unsigned 16 (h_doy h) /\ in_unsigned 16 (h_year h) /\ in_unsigned 16 (h_hsize h) /\
  in_unsigned 32 (h_doff h) /\ in_unsigned 32 (h_nvlr h) /\ in_unsigned 32 (h_npts h) /\
  List.length (h_byret h) = ePointsByReturnSize /\ Forall (in_unsigned 32) (h_byret h) /\
  Forall vlr_wf (h_vlrs h) /\ Forall vlr_wf (h_srs h) /\ in_unsigned 32 (h_pad h).

(** Model of SpatialReference (/repo/src/spatialreference.cpp,
    /repo/include/liblas/spatialreference.hpp) in a build without GDAL and
    libgeotiff: the two members that exist then, the list of records and the WKT
    text, and the functions on them.  Not modelled: m_gtiff and m_tiff (always 0
    in such a build; GetGTIF returns 0, SetGTIF resets them), GetPTree. *)
From Coq Require Import ZArith List Bool String.
Import ListNotations.
From Verif Require Import Outcome Bytes CStr Vlr_Model Header_Model Reader_Model.
Local Open Scope Z_scope.
Local Notation length := List.length (only parsing).

(** spatialreference.hpp (m_vlrs, m_wkt) *)
Record sref := mkSref { s_vlrs : list vlr; s_wkt : list Z }.
(** 88-94 *)
Definition sref_new : sref := mkSref [] [].
(** 162-179: the text is not touched *)
Definition sref_set_vlrs (s : sref) (l : list vlr) : sref := mkSref (filter is_geo_vlr l) (s_wkt s).
(** 96-102 *)
Definition sref_of_vlrs (l : list vlr) : sref := sref_set_vlrs sref_new l.
(** 181-187 *)
Definition sref_add_vlr (s : sref) (v : vlr) : sref := if is_geo_vlr v then mkSref (s_vlrs s ++ [v]) (s_wkt s) else s.
(** 221-224, 548-562, 767-810 (the GDAL-less branches) *)
Definition sref_get_vlrs (s : sref) : list vlr := s_vlrs s.
Definition sref_get_wkt (s : sref) : list Z := s_wkt s.
Definition sref_get_proj4 (s : sref) : list Z := [].
(** 226-272; spatialreference.hpp GeoVLRType *)
Inductive geo_kind := eGeoTIFF | eOGRWKT.
Definition wiped (k : geo_kind) (v : vlr) : bool :=
  match k with
  | eOGRWKT => (v_id v =? 2112) && zlist_eqb (until_nul (vlr_get_user true v)) (str "liblas")
  | eGeoTIFF => (v_id v =? 34735) || (v_id v =? 34736) || (v_id v =? 34737)
  end.
Definition sref_clear (k : geo_kind) (s : sref) : sref :=
  mkSref (filter (fun v => negb (wiped k v)) (s_vlrs s)) (match k with eOGRWKT => [] | eGeoTIFF => s_wkt s end).
(** 412-457: the WKT record, built from the text as a C string; the data is checked
    before the record is added *)
Definition wkt_record (w : list Z) : outcome vlr :=
  let data := until_nul w ++ [0] in
  let! v := vlr_set_user (vlr_set_id vlr_new 2112) (str "liblas") in
  let! v := vlr_set_desc v (str "OGR variant of OpenGIS WKT SRS") in
  if 65535 <? Z.of_nat (length data) then Throw ERuntime
  else Ok (vlr_set_data (vlr_set_size v (Z.of_nat (length data))) data).
(** What a call leaves behind, and how it ended. *)
Definition call : Type := (sref * outcome unit)%type.
(** 274-457 *)
Definition sref_reset (s : sref) : call :=
  match s_wkt s with
  | [] => (mkSref [] [], Ok tt)
  | w => match wkt_record w with
         | Ok v => (mkSref [v] w, Ok tt)
         | Throw e => (mkSref [] w, Throw e)
         | UB u => (mkSref [] w, UB u)
         end
  end.
(** 693-720 *)
Definition sref_set_wkt (s : sref) (w : list Z) : call := sref_reset (mkSref (s_vlrs s) w).
(** 813-880: two resets, the text of the argument is not looked at *)
Definition sref_set_proj4 (s : sref) (p : list Z) : call :=
  match sref_reset s with (s1, Ok _) => sref_reset s1 | (s1, r) => (s1, r) end.
(** 722-765 *)
Definition sref_set_vertical (s : sref) : call := (s, Ok tt).
(** 667-691 *)
Definition sref_set_user_input (s : sref) (t : list Z) : call := (s, Throw ERuntime).
(** 104-123: copy constructor and assignment from another object *)
Definition sref_assign (s t : sref) : sref := mkSref (filter is_geo_vlr (s_vlrs t)) (s_wkt t).

(** header.cpp:638-646: of the header's reference the model keeps the records *)
Definition header_set_srs (h : header) (s : sref) : header := set_srs h (s_vlrs s).

(** A history of calls on one object; an exception does not end it. *)
Inductive sop :=
| OSetVlrs (l : list vlr) | OAdd (v : vlr) | OClear (k : geo_kind) | OReset | OWkt (w : list Z) | OProj4 (p : list Z) | OVertical | OUser (t : list Z) | OAssign (t : sref).
Definition sop_run (s : sref) (o : sop) : call :=
  match o with
  | OSetVlrs l => (sref_set_vlrs s l, Ok tt)
  | OAdd v => (sref_add_vlr s v, Ok tt)
  | OClear k => (sref_clear k s, Ok tt)
  | OReset => sref_reset s
  | OWkt w => sref_set_wkt s w
  | OProj4 p => sref_set_proj4 s p
  | OVertical => sref_set_vertical s
  | OUser t => sref_set_user_input s t
  | OAssign t => (sref_assign s t, Ok tt)
  end.
Definition sops_run (s : sref) (os : list sop) : sref := fold_left (fun s o => fst (sop_run s o)) os s.

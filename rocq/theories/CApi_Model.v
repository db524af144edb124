(** Model of the C API (/repo/src/c_api.cpp) over the models of VLRs, headers,
    points and readers.

    A handle is an index into a table of objects; a destroyed object leaves an
    empty entry (its use is UB, as is the use of a null pointer).  A LASHeaderH is a
    pointer to a shared_ptr, which may itself be empty.  A point refers to a header
    it does not own.  LASReader_GetNextPoint and LASReader_GetPointAt hand out the
    address of the point inside the reader.

    Simplifications: error messages (e.what()) are left out, an error is its code
    and method; a LASColor is passed by value; files are byte lists, one per
    LASReader_Create; object addresses are not used twice.  Not modelled: the
    functions on GUIDs, schemas and spatial references, XML (the writer is
    in CApiW_Model.v), LASReader_CreateWithHeader, LASReader_SetHeader and
    LASPoint_SetHeader on a point inside a reader, LASError_Print. *)
From Coq Require Import ZArith List Bool String.
Import ListNotations.
From Verif Require Import Outcome Bytes CStr Float64 Endian_Model Classif_Model Vlr_Model Schema_Model Header_Model Point_Model Stream_Model Reader_Model Reader_Api.
Local Open Scope Z_scope.
Local Notation length := List.length (only parsing).

(** ** Handles, objects, results *)
Inductive ptr := Null | At (n : nat).
Inductive pptr := PNull | POwn (n : nat) | PRd (n : nat).
(** the header a point refers to: the library's default header, one made with
    LASHeader_*, the one inside a reader *)
Inductive href := HDefault | HObj (n : nat) | HRdr (n : nat).
Record cpoint := mkCP { cp_data : list Z; cp_hdr : href }.
Record cerr := mkErr { e_code : Z; e_method : string }.
Record cst := mkCst {
  c_errs : list cerr;                              (* std::stack, top first *)
  c_hdrs : list (option (option header));
  c_pts : list (option cpoint);
  c_vlrs : list (option vlr);
  c_rdrs : list (option reader) }.
Inductive res :=
  | Nothing | Num (z : Z) | Real (x : f64) | Text (s : option (list Z)) | Bytes (d : list Z) | Rgb (c : color)
  | HPtr (p : ptr) | VPtr (p : ptr) | PPtr (p : pptr) | RPtr (p : ptr).
(** c_api.cpp:113-120 *)
Definition LE_None : Z := 0.
Definition LE_Failure : Z := 3.

Definition set_errs (s : cst) l := mkCst l (c_hdrs s) (c_pts s) (c_vlrs s) (c_rdrs s).
Definition set_hdrs (s : cst) l := mkCst (c_errs s) l (c_pts s) (c_vlrs s) (c_rdrs s).
Definition set_pts (s : cst) l := mkCst (c_errs s) (c_hdrs s) l (c_vlrs s) (c_rdrs s).
Definition set_vlrs (s : cst) l := mkCst (c_errs s) (c_hdrs s) (c_pts s) l (c_rdrs s).
Definition set_rdrs (s : cst) l := mkCst (c_errs s) (c_hdrs s) (c_pts s) (c_vlrs s) l.
Definition put {A} (l : list (option A)) (n : nat) (x : A) : list (option A) := list_set l n (Some x).
Definition drop {A} (l : list (option A)) (n : nat) : list (option A) := list_set l n None.

(** c_api.cpp:220-223 *)
Definition push (s : cst) (code : Z) (m : string) : cst := set_errs s (mkErr code m :: c_errs s).
(** LASError_PushError(LE_Failure, e.what(), m); return rc; *)
Definition fail (s : cst) (m : string) (rc : res) : outcome (cst * res) := Ok (push s LE_Failure m, rc).
(** the object behind a handle *)
Definition object {A} (l : list (option A)) (n : nat) : outcome A :=
  match nth_error l n with Some (Some x) => Ok x | _ => UB UBNull end.
(** VALIDATE_LAS_POINTER1 (c_api.cpp:164-172) and the body *)
Definition valid {A} (s : cst) (m : string) (rc : res) (l : list (option A)) (p : ptr) (k : nat -> A -> outcome (cst * res)) : outcome (cst * res) :=
  match p with Null => fail s m rc | At n => let! x := object l n in k n x end.
(** try { s' = ...; } catch (std::exception const& e) {push; return LE_Failure}
    return LE_None; *)
Definition tried (s : cst) (m : string) (o : outcome cst) : outcome (cst * res) :=
  match o with Ok s' => Ok (s', Num LE_None) | Throw _ => fail s m (Num LE_Failure) | UB u => UB u end.

(** ** Error stack (c_api.cpp:182-227) *)

(** for (i = 0; i < errors.size(); i++) errors.pop(); *)
Fixpoint reset_loop (fuel : nat) (i : nat) (l : list cerr) : list cerr :=
  match fuel with
  | O => l
  | S f => if (i <? length l)%nat then reset_loop f (S i) (tl l) else l
  end.
Definition error_reset (l : list cerr) : list cerr := reset_loop (length l) 0 l.

(** ** Attributes *)
Inductive vnum := VRecordLength | VRecordId | VReserved.
Inductive vtext := VUserId | VDescription.
Definition vnum_get (a : vnum) (v : vlr) : Z := match a with VRecordLength => v_size v | VRecordId => v_id v | VReserved => v_reserved v end.
Definition vnum_set (a : vnum) (v : vlr) (x : Z) : vlr :=
  match a with VRecordLength => vlr_set_size v x | VRecordId => vlr_set_id v x | VReserved => vlr_set_reserved v x end.
Definition vtext_get (a : vtext) (v : vlr) : list Z := match a with VUserId => vlr_get_user true v | VDescription => vlr_get_desc true v end.
Definition vtext_set (a : vtext) (v : vlr) (t : list Z) : outcome vlr := match a with VUserId => vlr_set_user v t | VDescription => vlr_set_desc v t end.

(** attributes with LASHeader_Get... and LASHeader_Set... *)
Inductive hnum := HFileSourceId | HReserved | HVersionMajor | HVersionMinor | HCreationDOY | HCreationYear | HDataOffset | HHeaderPadding | HPointRecordsCount | HDataFormatId.
(** attributes with LASHeader_Get... only *)
Inductive hread := HHeaderSize | HRecordsCount | HDataRecordLength.
Inductive htext := HSystemId | HSoftwareId.
Inductive hreal := HScale | HOffset | HMin | HMax.
Inductive axis := AX | AY | AZ.
Definition axis_of (a : axis) (t : f64x3) : f64 := match a with AX => x_of t | AY => y_of t | AZ => z_of t end.
Definition hnum_get (a : hnum) (h : header) : Z :=
  match a with
  | HFileSourceId => h_srcid h | HReserved => h_reserved h | HVersionMajor => h_vmaj h | HVersionMinor => h_vmin h
  | HCreationDOY => h_doy h | HCreationYear => h_year h | HDataOffset => h_doff h | HHeaderPadding => h_pad h
  | HPointRecordsCount => h_npts h | HDataFormatId => get_format h mod 256
  end.
(** the header after the call, and how the call ended *)
Definition hnum_set (a : hnum) (h : header) (v : Z) : header * outcome unit :=
  let ended (o : outcome header) := match o with Ok h' => (h', Ok tt) | Throw e => (h, Throw e) | UB u => (h, UB u) end in
  match a with
  | HFileSourceId => (set_source_id h v, Ok tt) | HReserved => (set_reserved h v, Ok tt)
  | HVersionMajor => ended (set_version_major h v) | HVersionMinor => ended (set_version_minor h v)
  | HCreationDOY => (set_creation_doy h v, Ok tt) | HCreationYear => (set_creation_year h v, Ok tt)
  | HDataOffset => (set_data_offset h v, Ok tt) | HHeaderPadding => (set_header_padding h v, Ok tt)
  | HPointRecordsCount => (set_point_count h v, Ok tt) | HDataFormatId => set_header_format h v
  end.
Definition hread_get (a : hread) (h : header) : Z := match a with HHeaderSize => h_hsize h | HRecordsCount => h_nvlr h | HDataRecordLength => get_record_length h end.
Definition htext_get (a : htext) (h : header) : list Z := match a with HSystemId => get_system_id false h | HSoftwareId => get_software_id false h end.
Definition htext_set (a : htext) (h : header) (t : list Z) : outcome header := match a with HSystemId => set_system_id h t | HSoftwareId => set_software_id h t end.
Definition hreal_get (a : hreal) (h : header) : f64x3 := match a with HScale => h_scale h | HOffset => h_offset h | HMin => h_min h | HMax => h_max h end.
Definition hreal_set (a : hreal) (h : header) (x y z : f64) : header :=
  match a with HScale => set_scale h x y z | HOffset => set_offset h x y z | HMin => set_min h x y z | HMax => set_max h x y z end.

Inductive pnum := PRaw (a : axis) | PIntensity | PReturnNumber | PNumberOfReturns | PScanDirection | PFlightLineEdge | PScanFlags | PClassification | PScanAngleRank | PPointSourceId | PUserData.
Definition pnum_get (a : pnum) (p : point) : outcome Z :=
  match a with
  | PRaw AX => get_raw_x p | PRaw AY => get_raw_y p | PRaw AZ => get_raw_z p
  | PIntensity => get_intensity p | PReturnNumber => get_return_number p | PNumberOfReturns => get_number_of_returns p
  | PScanDirection => get_scan_direction p | PFlightLineEdge => get_flight_line_edge p | PScanFlags => get_flags p
  | PClassification => get_classification p | PScanAngleRank => get_scan_angle p | PPointSourceId => get_point_source_id p | PUserData => get_user_data p
  end.
Definition pnum_set (a : pnum) (p : point) (v : Z) : outcome point :=
  match a with
  | PRaw AX => set_raw_x p v | PRaw AY => set_raw_y p v | PRaw AZ => set_raw_z p v
  | PIntensity => set_intensity p v | PReturnNumber => set_return_number p v | PNumberOfReturns => set_number_of_returns p v
  | PScanDirection => set_scan_direction p v | PFlightLineEdge => set_flight_line_edge p v | PScanFlags => set_flags p v
  | PClassification => set_classification p v | PScanAngleRank => set_scan_angle p v | PPointSourceId => set_point_source_id p v | PUserData => set_user_data p v
  end.
Definition preal_get (a : axis) (p : point) : outcome f64 := match a with AX => get_x p | AY => get_y p | AZ => get_z p end.
Definition preal_set (a : axis) (p : point) (v : f64) : outcome point := match a with AX => set_x p v | AY => set_y p v | AZ => set_z p v end.

(** ** The calls *)
Inductive call :=
  (* errors *)
  | ErrReset | ErrPop | ErrPush (code : Z) (m : string) | ErrCode | ErrMethod | ErrCount
  (* variable length records *)
  | VlrCreate | VlrDestroy (v : ptr) | VlrGetN (a : vnum) (v : ptr) | VlrSetN (a : vnum) (v : ptr) (x : Z)
  | VlrGetT (a : vtext) (v : ptr) | VlrSetT (a : vtext) (v : ptr) (t : option (list Z))
  | VlrGetData (v : ptr) (room : nat) | VlrSetData (v : ptr) (d : list Z) (len : Z)
  (* headers *)
  | HdrCreate | HdrDestroy (h : ptr) | HdrCopy (h : ptr) | HdrEqual (h k : ptr)
  | HdrGetN (a : hnum) (h : ptr) | HdrSetN (a : hnum) (h : ptr) (x : Z) | HdrRead (a : hread) (h : ptr) | HdrSignature (h : ptr)
  | HdrGetT (a : htext) (h : ptr) | HdrSetT (a : htext) (h : ptr) (t : option (list Z))
  | HdrGetR (a : hreal) (x : axis) (h : ptr) | HdrSetR (a : hreal) (h : ptr) (x y z : f64)
  | HdrGetReturns (h : ptr) (i : Z) | HdrSetReturns (h : ptr) (i x : Z)
  | HdrGetVlr (h : ptr) (i : Z) | HdrDeleteVlr (h : ptr) (i : Z) | HdrAddVlr (h v : ptr)
  (* points *)
  | PtCreate | PtCopy (p : pptr) | PtDestroy (p : pptr) | PtEqual (p q : pptr) | PtGetHeader (p : pptr) | PtSetHeader (p : nat) (h : ptr)
  | PtGetN (a : pnum) (p : pptr) | PtSetN (a : pnum) (p : pptr) (x : Z) | PtGetR (a : axis) (p : pptr) | PtSetR (a : axis) (p : pptr) (x : f64)
  | PtGetTime (p : pptr) | PtSetTime (p : pptr) (t : f64) | PtGetColor (p : pptr) | PtSetColor (p : pptr) (c : color)
  | PtGetData (p : pptr) (room : nat) | PtSetData (p : pptr) (d : list Z) | PtValidate (p : pptr) | PtIsValid (p : pptr)
  (* readers *)
  | RdCreate (file : list Z) | RdDestroy (r : ptr) | RdGetHeader (r : ptr) | RdNext (r : ptr) | RdAt (r : ptr) (i : Z) | RdSeek (r : ptr) (i : Z).

(** the function called, as it is written in its own error reports *)
Definition vnum_name a : string := match a with VRecordLength => "RecordLength" | VRecordId => "RecordId" | VReserved => "Reserved" end.
Definition vtext_name a : string := match a with VUserId => "UserId" | VDescription => "Description" end.
Definition hnum_name a : string :=
  match a with HFileSourceId => "FileSourceId" | HReserved => "Reserved" | HVersionMajor => "VersionMajor" | HVersionMinor => "VersionMinor" | HCreationDOY => "CreationDOY"
  | HCreationYear => "CreationYear" | HDataOffset => "DataOffset" | HHeaderPadding => "HeaderPadding" | HPointRecordsCount => "PointRecordsCount" | HDataFormatId => "DataFormatId" end.
Definition hread_name a : string := match a with HHeaderSize => "HeaderSize" | HRecordsCount => "RecordsCount" | HDataRecordLength => "DataRecordLength" end.
Definition htext_name a : string := match a with HSystemId => "SystemId" | HSoftwareId => "SoftwareId" end.
Definition hreal_name a : string := match a with HScale => "Scale" | HOffset => "Offset" | HMin => "Min" | HMax => "Max" end.
Definition axis_name a : string := match a with AX => "X" | AY => "Y" | AZ => "Z" end.
Definition pnum_name a : string :=
  match a with PRaw a => "Raw" ++ axis_name a | PIntensity => "Intensity" | PReturnNumber => "ReturnNumber" | PNumberOfReturns => "NumberOfReturns" | PScanDirection => "ScanDirection"
  | PFlightLineEdge => "FlightLineEdge" | PScanFlags => "ScanFlags" | PClassification => "Classification" | PScanAngleRank => "ScanAngleRank" | PPointSourceId => "PointSourceId" | PUserData => "UserData" end.
Definition name_of (c : call) : string :=
  match c with
  | ErrReset => "LASError_Reset" | ErrPop => "LASError_Pop" | ErrPush _ _ => "LASError_PushError" | ErrCode => "LASError_GetLastErrorNum" | ErrMethod => "LASError_GetLastErrorMethod" | ErrCount => "LASError_GetErrorCount"
  | VlrCreate => "LASVLR_Create" | VlrDestroy _ => "LASVLR_Destroy" | VlrGetN a _ => "LASVLR_Get" ++ vnum_name a | VlrSetN a _ _ => "LASVLR_Set" ++ vnum_name a
  | VlrGetT a _ => "LASVLR_Get" ++ vtext_name a | VlrSetT a _ _ => "LASVLR_Set" ++ vtext_name a | VlrGetData _ _ => "LASVLR_GetData" | VlrSetData _ _ _ => "LASVLR_SetData"
  | HdrCreate => "LASHeader_Create" | HdrDestroy _ => "LASHeader_Destroy" | HdrCopy _ => "LASHeader_Copy" | HdrEqual _ _ => "LASHeader_Equal"
  | HdrGetN a _ => "LASHeader_Get" ++ hnum_name a | HdrSetN a _ _ => "LASHeader_Set" ++ hnum_name a | HdrRead a _ => "LASHeader_Get" ++ hread_name a | HdrSignature _ => "LASHeader_GetFileSignature"
  | HdrGetT a _ => "LASHeader_Get" ++ htext_name a | HdrSetT a _ _ => "LASHeader_Set" ++ htext_name a
  | HdrGetR a x _ => "LASHeader_Get" ++ hreal_name a ++ axis_name x | HdrSetR a _ _ _ _ => "LASHeader_Set" ++ hreal_name a
  | HdrGetReturns _ _ => "LASHeader_GetPointRecordsByReturnCount" | HdrSetReturns _ _ _ => "LASHeader_SetPointRecordsByReturnCount"
  | HdrGetVlr _ _ => "LASHeader_GetVLR" | HdrDeleteVlr _ _ => "LASHeader_DeleteVLR" | HdrAddVlr _ _ => "LASHeader_AddVLR"
  | PtCreate => "LASPoint_Create" | PtCopy _ => "LASPoint_Copy" | PtDestroy _ => "LASPoint_Destroy" | PtEqual _ _ => "LASPoint_Equal" | PtGetHeader _ => "LASPoint_GetHeader" | PtSetHeader _ _ => "LASPoint_SetHeader"
  | PtGetN a _ => "LASPoint_Get" ++ pnum_name a | PtSetN a _ _ => "LASPoint_Set" ++ pnum_name a | PtGetR a _ => "LASPoint_Get" ++ axis_name a | PtSetR a _ _ => "LASPoint_Set" ++ axis_name a
  | PtGetTime _ => "LASPoint_GetTime" | PtSetTime _ _ => "LASPoint_SetTime" | PtGetColor _ => "LASPoint_GetColor" | PtSetColor _ _ => "LASPoint_SetColor"
  | PtGetData _ _ => "LASPoint_GetData" | PtSetData _ _ => "LASPoint_SetData" | PtValidate _ => "LASPoint_Validate" | PtIsValid _ => "LASPoint_IsValid"
  | RdCreate _ => "LASReader_Create" | RdDestroy _ => "LASReader_Destroy" | RdGetHeader _ => "LASReader_GetHeader" | RdNext _ => "LASReader_GetNextPoint" | RdAt _ _ => "LASReader_GetPointAt" | RdSeek _ _ => "LASReader_Seek"
  end.

(** ** Points *)

(** the header object a point refers to *)
Definition header_at (s : cst) (n : nat) : outcome header :=
  let! o := object (c_hdrs s) n in match o with Some h => Ok h | None => UB UBNull end.
Definition header_of (dh : header) (s : cst) (r : href) : outcome header :=
  match r with
  | HDefault => Ok dh
  | HObj n => header_at s n
  | HRdr n => let! r := object (c_rdrs s) n in Ok (r_hdr r)
  end.
(** the point behind a handle, its data, header, and how to store new data *)
Definition point_at (dh : header) (s : cst) (p : pptr) : outcome (point * href) :=
  match p with
  | PNull => UB UBNull
  | POwn n => let! q := object (c_pts s) n in let! h := header_of dh s (cp_hdr q) in Ok (mkPoint (cp_data q) h, cp_hdr q)
  | PRd n => let! r := object (c_rdrs s) n in Ok (r_point r, HRdr n)
  end.
Definition put_data (s : cst) (p : pptr) (d : list Z) : cst :=
  match p with
  | PNull => s
  | POwn n => match nth_error (c_pts s) n with Some (Some q) => set_pts s (put (c_pts s) n (mkCP d (cp_hdr q))) | _ => s end
  | PRd n => match nth_error (c_rdrs s) n with Some (Some r) => set_rdrs s (put (c_rdrs s) n (rd_data r d)) | _ => s end
  end.
Definition pt_valid (dh : header) (s : cst) (m : string) (rc : res) (p : pptr) (k : point -> outcome (cst * res)) : outcome (cst * res) :=
  match p with PNull => fail s m rc | _ => let! (q, _) := point_at dh s p in k q end.
(** exceptions that are std::runtime_error *)
Definition is_runtime (e : exn) : bool :=
  match e with ERuntime | ELiblas | EInvalidFormat | EInvalidPointData | EConfiguration => true | _ => false end.
Definition pptr_eqb (p q : pptr) : bool :=
  match p, q with POwn a, POwn b => Nat.eqb a b | PRd a, PRd b => Nat.eqb a b | _, _ => false end.
(** point.cpp:131-159 with c_api.cpp:1025-1041: e.who() *)
Definition who (p : point) : outcome Z :=
  let! rn := get_return_number p in
  let! nr := get_number_of_returns p in
  let! sd := get_scan_direction p in
  let! fe := get_flight_line_edge p in
  let! sa := get_scan_angle p in
  Ok ((if 7 <? rn then 1 else 0) + (if 7 <? nr then 2 else 0) + (if 1 <? sd then 4 else 0) + (if 1 <? fe then 8 else 0)
      + (if (sa <? eScanAngleRankMin) || (eScanAngleRankMax <? sa) then 32 else 0)).
Definition ptr_eqb (p q : ptr) : bool := match p, q with At a, At b => Nat.eqb a b | _, _ => false end.

(** ** The functions

    VALIDATE_LAS_POINTER1(hHeader->get(), ...): a null LASHeaderH is dereferenced *)
Definition hdr_valid (s : cst) (m : string) (rc : res) (p : ptr) (k : nat -> header -> outcome (cst * res)) : outcome (cst * res) :=
  match p with
  | Null => UB UBNull
  | At n => let! o := object (c_hdrs s) n in match o with None => fail s m rc | Some h => k n h end
  end.
Definition put_hdr (s : cst) (n : nat) (h : header) : cst := set_hdrs s (put (c_hdrs s) n (Some h)).
Definition new_hdr (s : cst) (o : option header) : cst * res := (set_hdrs s (c_hdrs s ++ [Some o]), HPtr (At (length (c_hdrs s)))).
Definition new_vlr (s : cst) (v : vlr) : cst * res := (set_vlrs s (c_vlrs s ++ [Some v]), VPtr (At (length (c_vlrs s)))).
Definition new_pt (s : cst) (p : cpoint) : cst * res := (set_pts s (c_pts s ++ [Some p]), PPtr (POwn (length (c_pts s)))).
(** a C string argument; std::string(NULL) *)
Definition c_string (t : option (list Z)) : outcome (list Z) := match t with None => UB UBNull | Some l => Ok (until_nul l) end.

Definition cstep (dh : header) (xml : vlr -> outcome schema) (doy year : Z) (s : cst) (c : call) : outcome (cst * res) :=
  let m := name_of c in
  match c with
  (* 182-227 *)
  | ErrReset => Ok (set_errs s (error_reset (c_errs s)), Nothing)
  | ErrPop => Ok (set_errs s (tl (c_errs s)), Nothing)
  | ErrPush code m => Ok (push s code m, Nothing)
  | ErrCode => Ok (s, Num (match c_errs s with [] => 0 | e :: _ => e_code e end))
  | ErrMethod => Ok (s, Text (match c_errs s with [] => None | e :: _ => Some (str (e_method e)) end))
  | ErrCount => Ok (s, Num (to_signed 32 (Z.of_nat (length (c_errs s)))))
  (* 1914-2077 *)
  | VlrCreate => Ok (new_vlr s vlr_new)
  | VlrDestroy v => valid s m Nothing (c_vlrs s) v (fun n _ => Ok (set_vlrs s (drop (c_vlrs s) n), Nothing))
  | VlrGetN a v => valid s m (Num 0) (c_vlrs s) v (fun _ x => Ok (s, Num (vnum_get a x)))
  | VlrSetN a v x => valid s m (Num LE_Failure) (c_vlrs s) v (fun n y => Ok (set_vlrs s (put (c_vlrs s) n (vnum_set a y x)), Num LE_None))
  | VlrGetT a v => valid s m (Text None) (c_vlrs s) v (fun _ x => Ok (s, Text (Some (until_nul (vtext_get a x)))))
  | VlrSetT a v t => valid s m (Num LE_Failure) (c_vlrs s) v (fun n y =>
      tried s m (let! t := c_string t in let! y := vtext_set a y t in Ok (set_vlrs s (put (c_vlrs s) n y))))
  | VlrGetData v room => valid s m (Num LE_Failure) (c_vlrs s) v (fun _ x =>
      let len := Z.to_nat (v_size x) in
      if ((length (v_data x) <? len)%nat || (room <? len)%nat) then UB UBOutOfBounds else Ok (s, Bytes (firstn len (v_data x))))
  | VlrSetData v d len => valid s m (Num LE_Failure) (c_vlrs s) v (fun n x =>
      if (length d <? Z.to_nat len)%nat then UB UBOutOfBounds
      else Ok (set_vlrs s (put (c_vlrs s) n (vlr_set_data x (firstn (Z.to_nat len) d))), Num LE_None))
  (* 534-536, 1116-1630 *)
  | HdrCreate => let! h := header_new doy year in Ok (new_hdr s (Some h))
  | HdrDestroy h => valid s m Nothing (c_hdrs s) h (fun n _ => Ok (set_hdrs s (drop (c_hdrs s) n), Nothing))
  | HdrCopy h => match h with Null => UB UBNull | At n => let! x := header_at s n in Ok (new_hdr s (Some x)) end
  | HdrEqual h k => hdr_valid s m (Num 0) h (fun _ x => hdr_valid s m (Num 0) k (fun _ y =>
      let! b := header_eq (ptr_eqb h k) x y in Ok (s, Num (if b then 1 else 0))))
  | HdrGetN a h => hdr_valid s m (Num 0) h (fun _ x => Ok (s, Num (hnum_get a x)))
  | HdrSetN HDataFormatId h v =>  (* 1347-1360: checks hHeader, not hHeader->get() *)
      valid s m (Num LE_Failure) (c_hdrs s) h (fun n o =>
        match o with
        | None => UB UBNull
        | Some x => match hnum_set HDataFormatId x v with (x', Ok _) => Ok (put_hdr s n x', Num LE_None) | (x', Throw _) => fail (put_hdr s n x') m (Num LE_Failure) | (_, UB u) => UB u end
        end)
  | HdrSetN a h v => hdr_valid s m (Num LE_Failure) h (fun n x =>
      match hnum_set a x v with (x', Ok _) => Ok (put_hdr s n x', Num LE_None) | (x', Throw _) => fail (put_hdr s n x') m (Num LE_Failure) | (_, UB u) => UB u end)
  | HdrRead a h => hdr_valid s m (Num 0) h (fun _ x => Ok (s, Num (hread_get a x)))
  | HdrSignature h => hdr_valid s m (Text None) h (fun _ x => Ok (s, Text (Some (until_nul (get_file_signature x)))))
  | HdrGetT a h => hdr_valid s m (Text None) h (fun _ x => Ok (s, Text (Some (until_nul (htext_get a x)))))
  | HdrSetT a h t => hdr_valid s m (Num LE_Failure) h (fun n x => tried s m (let! t := c_string t in let! x := htext_set a x t in Ok (put_hdr s n x)))
  | HdrGetR a i h => hdr_valid s m (Real f64_zero) h (fun _ x => Ok (s, Real (axis_of i (hreal_get a x))))
  | HdrSetR a h x y z => hdr_valid s m (Num LE_Failure) h (fun n o => Ok (put_hdr s n (hreal_set a o x y z), Num LE_None))
  | HdrGetReturns h i => hdr_valid s m (Num 0) h (fun _ x => if (i <? 5) && (0 <=? i) then let! v := deref (h_byret x) i in Ok (s, Num v) else Ok (s, Num 0))
  | HdrSetReturns h i v => hdr_valid s m (Num LE_Failure) h (fun n x => tried s m (let! x := set_by_return x (i mod 2 ^ 64) v in Ok (put_hdr s n x)))
  | HdrGetVlr h i => hdr_valid s m (VPtr Null) h (fun _ x => let! v := get_vlr x i in Ok (new_vlr s v))
  | HdrDeleteVlr h i => hdr_valid s m (Num LE_Failure) h (fun n x => tried s m (let! x := delete_vlr x i in Ok (put_hdr s n x)))
  | HdrAddVlr h v => hdr_valid s m (Num LE_Failure) h (fun n x => valid s m (Num LE_Failure) (c_vlrs s) v (fun _ y => Ok (put_hdr s n (add_vlr x y), Num LE_None)))
  (* 538-1050, 2160-2195 *)
  | PtCreate => Ok (new_pt s (mkCP (p_data (point_new dh)) HDefault))
  | PtCopy p => let! (q, r) := point_at dh s p in Ok (new_pt s (mkCP (p_data q) r))
  | PtDestroy p => match p with PNull => fail s m Nothing | POwn n => let! _ := object (c_pts s) n in Ok (set_pts s (drop (c_pts s) n), Nothing) | PRd _ => UB UBNull end
  | PtEqual p q => match p, q with PNull, _ => fail s m (Num 0) | _, PNull => fail s m (Num 0) | _, _ => Ok (s, Num (if pptr_eqb p q then 1 else 0)) end
  | PtGetHeader p => match p with PNull => let (s', r) := new_hdr s None in fail s' m r | _ => let! (q, _) := point_at dh s p in Ok (new_hdr s (Some (p_hdr q))) end
  | PtSetHeader n h => valid s m Nothing (c_hdrs s) h (fun k o =>
      match o with
      | None => UB UBNull
      | Some x => let! (q, _) := point_at dh s (POwn n) in let! q := set_header q x in Ok (set_pts s (put (c_pts s) n (mkCP (p_data q) (HObj k))), Nothing)
      end)
  | PtGetN a p => pt_valid dh s m (Num 0) p (fun q => let! v := pnum_get a q in Ok (s, Num v))
  | PtSetN a p v => pt_valid dh s m (Num LE_Failure) p (fun q => tried s m (let! q := pnum_set a q v in Ok (put_data s p (p_data q))))
  | PtGetR a p => pt_valid dh s m (Real f64_zero) p (fun q => let! v := preal_get a q in Ok (s, Real v))
  | PtSetR a p v => pt_valid dh s m (Num LE_Failure) p (fun q => tried s m (let! q := preal_set a q v in Ok (put_data s p (p_data q))))
  | PtGetTime p => pt_valid dh s m (Real f64_zero) p (fun q => match get_time q with Throw e => if is_runtime e then Ok (s, Real f64_zero) else Throw e | o => let! v := o in Ok (s, Real v) end)
  | PtSetTime p v => pt_valid dh s m (Num LE_Failure) p (fun q => match set_time q v with Throw e => if is_runtime e then Ok (s, Num LE_None) else fail s m (Num LE_Failure) | o => tried s m (let! q := o in Ok (put_data s p (p_data q))) end)
  | PtGetColor p => pt_valid dh s m (Rgb color_black) p (fun q => match get_color q with Throw e => if is_runtime e then Ok (s, Rgb color_black) else Throw e | o => let! v := o in Ok (s, Rgb v) end)
  | PtSetColor p v => pt_valid dh s m (Num LE_Failure) p (fun q => match set_color q v with Throw e => if is_runtime e then Ok (s, Num LE_None) else fail s m (Num LE_Failure) | o => tried s m (let! q := o in Ok (put_data s p (p_data q))) end)
  | PtGetData p room => pt_valid dh s m (Num LE_Failure) p (fun q =>
      let size := Z.to_nat (get_record_length (p_hdr q)) in
      if ((length (p_data q) <? size)%nat || (room <? size)%nat) then UB UBOutOfBounds else Ok (s, Bytes (firstn size (p_data q))))
  | PtSetData p d => pt_valid dh s m (Num LE_Failure) p (fun q =>
      let size := Z.to_nat (get_record_length (p_hdr q)) in
      (* d.resize(size); d.assign(0, d.size()): an empty vector *)
      let old := if (length (p_data q) =? size)%nat then p_data q else [] in
      if ((length old <? size)%nat || (length d <? size)%nat) then UB UBOutOfBounds
      else Ok (put_data s p (firstn size d ++ skipn size old), Num LE_None))
  | PtValidate p => pt_valid dh s m (Num LE_Failure) p (fun q => let! f := who q in Ok (s, Num f))
  | PtIsValid p => pt_valid dh s m (Num LE_Failure) p (fun q => let! b := is_valid q in Ok (s, Num (if b then 1 else 0)))
  (* 231-437 *)
  | RdCreate F => match reader_open xml doy year F with Ok r => Ok (set_rdrs s (c_rdrs s ++ [Some r]), RPtr (At (length (c_rdrs s)))) | Throw _ => fail s m (RPtr Null) | UB u => UB u end
  | RdDestroy r => valid s m Nothing (c_rdrs s) r (fun n _ => Ok (set_rdrs s (drop (c_rdrs s) n), Nothing))
  | RdGetHeader r => match r with Null => let (s', h) := new_hdr s None in fail s' m h | At n => let! x := object (c_rdrs s) n in Ok (new_hdr s (Some (r_hdr x))) end
  | RdNext r => valid s m (PPtr PNull) (c_rdrs s) r (fun n x =>
      let (rf, a) := reader_next no_filter no_transform x tt in
      let s' := set_rdrs s (put (c_rdrs s) n (fst rf)) in
      match a with
      | Ok true => Ok (s', PPtr (PRd n)) | Ok false => Ok (s', PPtr PNull)
      | Throw e => fail s' (match e with EInvalidPointData => (m ++ " Invalid Point")%string | _ => m end) (PPtr PNull) | UB u => UB u end)
  | RdAt r i => valid s m (PPtr PNull) (c_rdrs s) r (fun n x =>
      let (r1, a) := reader_at no_transform x i in
      let s' := set_rdrs s (put (c_rdrs s) n r1) in
      match a with
      | Ok true => Ok (s', PPtr (PRd n)) | Ok false => Ok (s', PPtr PNull)
      | Throw e => fail s' (match e with EInvalidPointData => (m ++ " Invalid Point")%string | _ => m end) (PPtr PNull) | UB u => UB u end)
  | RdSeek r i => valid s m (Num LE_None) (c_rdrs s) r (fun n x =>
      let (r1, a) := reader_seek x i in
      let s' := set_rdrs s (put (c_rdrs s) n r1) in
      match a with
      | Ok true => Ok (s', Num LE_None) | Ok false => Ok (s', Num LE_Failure)
      | Throw e => fail s' (match e with EInvalidPointData => (m ++ " Invalid location")%string | _ => m end) (Num LE_None) | UB u => UB u end)
  end.
Fixpoint crun (dh : header) (xml : vlr -> outcome schema) (doy year : Z) (s : cst) (l : list call) : outcome (cst * list res) :=
  match l with
  | [] => Ok (s, [])
  | c :: l => let! (s, r) := cstep dh xml doy year s c in let! (s, rs) := crun dh xml doy year s l in Ok (s, r :: rs)
  end.
Definition c_start : cst := mkCst [] [] [] [] [].

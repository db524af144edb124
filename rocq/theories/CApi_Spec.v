(** Statement vocabulary for the C API (C57-C60). *)
From Coq Require Import ZArith List Bool String Lia.
Import ListNotations.
From Verif Require Import Outcome Bytes CStr Float64 Float64_Proofs Endian_Model Classif_Model Vlr_Model Schema_Model Header_Model Point_Model Point_Spec Point_Api Coord_Api Stream_Model Reader_Model Reader_Api IO_Spec Reader_Spec Reader_Hist CApi_Model.
Local Open Scope Z_scope.
Local Notation length := List.length (only parsing).

(** ** C57 *)

(** functions that return LASErrorEnum *)
Definition returns_status (c : call) : bool :=
  match c with
  | VlrSetN _ _ _ | VlrSetT _ _ _ | VlrSetData _ _ _ | HdrSetN _ _ _ | HdrSetT _ _ _ | HdrSetR _ _ _ _ _ | HdrSetReturns _ _ _
  | HdrDeleteVlr _ _ | HdrAddVlr _ _ | PtSetN _ _ _ | PtSetR _ _ _ | PtSetTime _ _ | PtSetColor _ _ | PtSetData _ _ => true
  | _ => false
  end.
Definition about_errors (c : call) : bool :=
  match c with ErrReset | ErrPop | ErrPush _ _ | ErrCode | ErrMethod | ErrCount => true | _ => false end.
Definition is_seek_call (c : call) : bool := match c with RdSeek _ _ => true | _ => false end.
(** what a function documents as its answer to a failed call *)
Definition failure_answer (c : call) (r : res) : Prop :=
  match c with
  | VlrSetN _ _ _ | VlrSetT _ _ _ | VlrSetData _ _ _ | HdrSetN _ _ _ | HdrSetT _ _ _ | HdrSetR _ _ _ _ _ | HdrSetReturns _ _ _
  | HdrDeleteVlr _ _ | HdrAddVlr _ _ | PtSetN _ _ _ | PtSetR _ _ _ | PtSetTime _ _ | PtSetColor _ _ | PtSetData _ _
  | VlrGetData _ _ | PtGetData _ _ | PtValidate _ | PtIsValid _ => r = Num 3
  | VlrGetN _ _ | HdrGetN _ _ | HdrRead _ _ | HdrGetReturns _ _ | HdrEqual _ _ | PtEqual _ _ | PtGetN _ _ => r = Num 0
  | VlrGetT _ _ | HdrSignature _ | HdrGetT _ _ => r = Text None
  | HdrGetR _ _ _ | PtGetR _ _ | PtGetTime _ => r = Real f64_zero
  | PtGetColor _ => r = Rgb (mkColor 0 0 0)
  | HdrGetVlr _ _ => r = VPtr Null
  | RdNext _ | RdAt _ _ => r = PPtr PNull
  | RdCreate _ => r = RPtr Null
  | VlrDestroy _ | HdrDestroy _ | PtDestroy _ | PtSetHeader _ _ | RdDestroy _ => r = Nothing
  | PtGetHeader _ | RdGetHeader _ => exists n, r = HPtr (At n)
  | _ => False
  end.
Definition same_objects (s t : cst) : Prop := c_hdrs t = c_hdrs s /\ c_pts t = c_pts s /\ c_vlrs t = c_vlrs s /\ c_rdrs t = c_rdrs s.
(** the newest error is about call c and the older ones are still there *)
Definition error_added (c : call) (s t : cst) : Prop :=
  exists e, c_errs t = e :: c_errs s /\ e_code e = 3 /\ String.prefix (name_of c) (e_method e) = true.
Definition sets_format (c : call) : bool := match c with HdrSetN HDataFormatId _ _ => true | _ => false end.


(** arguments of the C type of the function; a text is a C string *)
Definition fits_hnum (a : hnum) (x : Z) : Prop :=
  match a with
  | HVersionMajor | HVersionMinor | HDataFormatId => in_unsigned 8 x
  | HFileSourceId | HReserved | HCreationDOY | HCreationYear => in_unsigned 16 x
  | HDataOffset | HHeaderPadding | HPointRecordsCount => in_unsigned 32 x
  end.
(** length of a C string *)
Definition c_length (t : option (list Z)) : nat := match t with None => 0 | Some l => length (until_nul l) end.
(** what the library refuses to store, given live handles *)
Definition refused (s : cst) (c : call) : Prop :=
  match c with
  | HdrSetN HVersionMajor _ x => x <> 1
  | HdrSetN HVersionMinor _ x => 3 < x
  | HdrSetN HDataFormatId _ x => 3 < x
  | HdrSetT _ _ t => (32 < c_length t)%nat
  | HdrSetReturns _ i _ => ~ 0 <= i <= 6
  | HdrDeleteVlr (At n) i => exists h, nth_error (c_hdrs s) n = Some (Some (Some h)) /\ Z.of_nat (length (h_vlrs h)) <= i
  | VlrSetT VUserId _ t => (16 < c_length t)%nat
  | VlrSetT VDescription _ t => (32 < c_length t)%nat
  | _ => False
  end.

(** ** C60: which calls are safe

    Nothing but the handles and buffers the caller passes decides it. *)
Definition live_vlr (s : cst) (p : ptr) (v : vlr) : Prop := exists n, p = At n /\ nth_error (c_vlrs s) n = Some (Some v).
Definition live_hdr (s : cst) (p : ptr) (h : header) : Prop := exists n, p = At n /\ nth_error (c_hdrs s) n = Some (Some (Some h)).
(** the header of a point, as the library finds it *)
Definition header_for (dh : header) (s : cst) (r : href) (h : header) : Prop :=
  match r with
  | HDefault => h = dh
  | HObj n => nth_error (c_hdrs s) n = Some (Some (Some h))
  | HRdr n => exists r, nth_error (c_rdrs s) n = Some (Some r) /\ h = r_hdr r
  end.
Definition live_pt (dh : header) (s : cst) (p : pptr) (q : point) : Prop :=
  match p with
  | PNull => False
  | POwn n => exists x, nth_error (c_pts s) n = Some (Some x) /\ cp_data x = p_data q /\ header_for dh s (cp_hdr x) (p_hdr q)
  | PRd n => exists r, nth_error (c_rdrs s) n = Some (Some r) /\ q = r_point r
  end.
(** some point still refers to header n *)
Definition in_use (s : cst) (r : href) : Prop := exists k x, nth_error (c_pts s) k = Some (Some x) /\ cp_hdr x = r.

(** a file the reader opens and reads with its standard layout *)
Definition readable (xml : vlr -> outcome schema) (F : list Z) : Prop :=
  las_file F /\ reads_standard xml F /\ finite_scaling F /\ complete F /\ format_bytes (u_at F 104 1) <= f_reclen F.

Definition careful (dh : header) (xml : vlr -> outcome schema) (s : cst) (c : call) : Prop :=
  match c with
  | ErrReset | ErrPop | ErrPush _ _ | ErrCode | ErrMethod | ErrCount | VlrCreate | HdrCreate | PtCreate => True
  (* null or live *)
  | VlrDestroy v | VlrGetN _ v | VlrSetN _ v _ | VlrGetT _ v => v = Null \/ exists x, live_vlr s v x
  | VlrSetT _ v t => v = Null \/ (exists x, live_vlr s v x) /\ exists l, t = Some l /\ bytes_ok l
  | VlrGetData v room => v = Null \/ exists x, live_vlr s v x /\ v_size x <= Z.of_nat (length (v_data x)) /\ v_size x <= Z.of_nat room
  | VlrSetData v d len => v = Null \/ (exists x, live_vlr s v x) /\ bytes_ok d /\ 0 <= len <= Z.of_nat (length d)
  (* live *)
  | HdrCopy h | HdrGetN _ h | HdrRead _ h | HdrSignature h | HdrGetT _ h | HdrGetR _ _ h | HdrSetR _ h _ _ _ =>
      exists x, live_hdr s h x
  | HdrGetReturns h i | HdrSetReturns h i _ => in_signed 32 i /\ exists x, live_hdr s h x
  | HdrDeleteVlr h i => in_unsigned 32 i /\ exists x, live_hdr s h x
  | HdrDestroy h => h = Null \/ exists n, h = At n /\ (exists x, nth_error (c_hdrs s) n = Some (Some x)) /\ ~ in_use s (HObj n)
  | HdrEqual h k => (exists x, live_hdr s h x) /\ exists x, live_hdr s k x
  | HdrSetN a h v => fits_hnum a v /\ exists n x, h = At n /\ live_hdr s h x /\ (a = HDataFormatId -> ~ in_use s (HObj n))
  | HdrSetT _ h t => (exists x, live_hdr s h x) /\ exists l, t = Some l /\ bytes_ok l
  | HdrGetVlr h i => exists x, live_hdr s h x /\ 0 <= i < Z.of_nat (length (h_vlrs x))
  | HdrAddVlr h v => (exists x, live_hdr s h x) /\ (v = Null \/ exists x, live_vlr s v x)
  (* null or live *)
  | PtCopy p => exists q, live_pt dh s p q
  | PtDestroy p => p = PNull \/ exists n q, p = POwn n /\ nth_error (c_pts s) n = Some (Some q)
  | PtEqual _ _ => True
  | PtGetHeader p | PtGetN _ p | PtSetN _ p _ | PtGetR _ p | PtGetTime p | PtSetTime p _ | PtGetColor p | PtValidate p | PtIsValid p =>
      p = PNull \/ exists q, live_pt dh s p q
  | PtSetColor p c => p = PNull \/ (exists q, live_pt dh s p q) /\ in_unsigned 16 (c_red c) /\ in_unsigned 16 (c_green c) /\ in_unsigned 16 (c_blue c)
  | PtSetHeader n h => h = Null \/ exists q x, live_pt dh s (POwn n) q /\ live_hdr s h x /\ layout_ok x /\ target_ok x /\ coords_fit q x
  | PtSetR a p v => p = PNull \/ exists q, live_pt dh s p q /\ 
      let ax := match a with AX => AxX | AY => AxY | AZ => AxZ end in
      scale_ok (scale_of ax (p_hdr q)) /\ offset_ok (offset_of ax (p_hdr q)) /\ storable (scale_of ax (p_hdr q)) (offset_of ax (p_hdr q)) v
  | PtGetData p room => p = PNull \/ exists q, live_pt dh s p q /\ get_record_length (p_hdr q) <= Z.of_nat room
  | PtSetData p d => p = PNull \/ exists q, live_pt dh s p q /\ bytes_ok d /\ get_record_length (p_hdr q) <= Z.of_nat (length d)
  | RdCreate F => readable xml F
  | RdDestroy r => r = Null \/ exists n x, r = At n /\ nth_error (c_rdrs s) n = Some (Some x) /\ ~ in_use s (HRdr n)
  | RdGetHeader r | RdNext r => r = Null \/ exists n x, r = At n /\ nth_error (c_rdrs s) n = Some (Some x)
  | RdAt r i | RdSeek r i => in_unsigned 32 i /\ (r = Null \/ exists n x, r = At n /\ nth_error (c_rdrs s) n = Some (Some x))
  end.
(** every call of a run is safe in the state it is made in *)
Fixpoint careful_run (dh : header) (xml : vlr -> outcome schema) (doy year : Z) (s : cst) (l : list call) : Prop :=
  match l with
  | [] => True
  | c :: l => careful dh xml s c /\ forall t r, cstep dh xml doy year s c = Ok (t, r) -> careful_run dh xml doy year t l
  end.

(** a state that a program using the library with care can be in *)
Definition reached (dh : header) (xml : vlr -> outcome schema) (doy year : Z) (s : cst) : Prop :=
  exists l rs, careful_run dh xml doy year c_start l /\ crun dh xml doy year c_start l = Ok (s, rs).
(** the default header of points is one of a supported format *)
Definition default_ok (dh : header) : Prop := header_wf dh /\ layout_ok dh.
(** a call that was given a null handle it checks for *)
Definition null_handle (c : call) : Prop :=
  match c with
  | VlrSetN _ v _ | VlrSetT _ v _ | VlrSetData v _ _ | HdrAddVlr _ v => v = Null
  | PtSetN _ p _ | PtSetR _ p _ | PtSetTime p _ | PtSetColor p _ | PtSetData p _ => p = PNull
  | _ => False
  end.

(** ** C58 *)
Definition removes_errors (c : call) : bool := match c with ErrReset | ErrPop => true | _ => false end.

(** ** C60: the existing object a call may change *)
Inductive obj := OHdr (n : nat) | OPt (n : nat) | OVlr (n : nat) | ORdr (n : nat) | ONone.
Definition of_h (p : ptr) := match p with At n => OHdr n | Null => ONone end.
Definition of_v (p : ptr) := match p with At n => OVlr n | Null => ONone end.
Definition of_r (p : ptr) := match p with At n => ORdr n | Null => ONone end.
Definition of_p (p : pptr) := match p with POwn n => OPt n | PRd n => ORdr n | PNull => ONone end.
Definition may_change (c : call) : obj :=
  match c with
  | VlrDestroy v | VlrSetN _ v _ | VlrSetT _ v _ | VlrSetData v _ _ => of_v v
  | HdrDestroy h | HdrSetN _ h _ | HdrSetT _ h _ | HdrSetR _ h _ _ _ | HdrSetReturns h _ _ | HdrDeleteVlr h _ | HdrAddVlr h _ => of_h h
  | PtDestroy p | PtSetN _ p _ | PtSetR _ p _ | PtSetTime p _ | PtSetColor p _ | PtSetData p _ => of_p p
  | PtSetHeader n _ => OPt n
  | RdDestroy r | RdNext r | RdAt r _ | RdSeek r _ => of_r r
  | _ => ONone
  end.
(** everything that existed in s and is not o is the same in t *)
Definition same_but (o : obj) (s t : cst) : Prop :=
  (forall n x, o <> OHdr n -> nth_error (c_hdrs s) n = Some x -> nth_error (c_hdrs t) n = Some x) /\
  (forall n x, o <> OPt n -> nth_error (c_pts s) n = Some x -> nth_error (c_pts t) n = Some x) /\
  (forall n x, o <> OVlr n -> nth_error (c_vlrs s) n = Some x -> nth_error (c_vlrs t) n = Some x) /\
  (forall n x, o <> ORdr n -> nth_error (c_rdrs s) n = Some x -> nth_error (c_rdrs t) n = Some x).

(** ** C59: setters and getters *)
Definition pattr (a : pnum) : attr :=
  match a with
  | PRaw AX => ARawX | PRaw AY => ARawY | PRaw AZ => ARawZ | PIntensity => AIntensity | PReturnNumber => AReturnNumber | PNumberOfReturns => ANumberOfReturns
  | PScanDirection => AScanDirection | PFlightLineEdge => AFlightLineEdge | PScanFlags => AScanFlags | PClassification => AClassification
  | PScanAngleRank => AScanAngleRank | PPointSourceId => APointSourceId | PUserData => AUserData
  end.
Definition pnum_fits (a : pnum) (x : Z) : Prop := exists b w sg, attr_range 0 (pattr a) = Some (b, w, sg) /\ value_fits sg w x.
(** call c stores something, call g asks for it, v is what was stored *)
Inductive stores (dh : header) (s : cst) : call -> call -> res -> Prop :=
| st_vlr_number a v x : in_unsigned 16 x -> stores dh s (VlrSetN a v x) (VlrGetN a v) (Num x)
| st_vlr_text a v l : stores dh s (VlrSetT a v (Some l)) (VlrGetT a v) (Text (Some (until_nul l)))
| st_hdr_number a h x : fits_hnum a x -> stores dh s (HdrSetN a h x) (HdrGetN a h) (Num x)
| st_hdr_text a h l : stores dh s (HdrSetT a h (Some l)) (HdrGetT a h) (Text (Some (until_nul l)))
| st_hdr_real a i h x y z : stores dh s (HdrSetR a h x y z) (HdrGetR a i h) (Real (match i with AX => x | AY => y | AZ => z end))
| st_hdr_returns h i x : 0 <= i < 5 -> in_unsigned 32 x -> stores dh s (HdrSetReturns h i x) (HdrGetReturns h i) (Num x)
| st_pt_number a p x : pnum_fits a x -> stores dh s (PtSetN a p x) (PtGetN a p) (Num x)
| st_pt_time p q t : live_pt dh s p q -> p_format q = 1 \/ p_format q = 3 -> stores dh s (PtSetTime p t) (PtGetTime p) (Real t)
| st_pt_color p q c : live_pt dh s p q -> p_format q = 2 \/ p_format q = 3 -> stores dh s (PtSetColor p c) (PtGetColor p) (Rgb c)
| st_pt_data p q d room : live_pt dh s p q -> get_record_length (p_hdr q) <= Z.of_nat room ->
    stores dh s (PtSetData p d) (PtGetData p room) (Bytes (firstn (Z.to_nat (get_record_length (p_hdr q))) d)).

(** getters, and the object they ask *)
Definition asks (g : call) : obj :=
  match g with
  | VlrGetN _ v | VlrGetT _ v | VlrGetData v _ => of_v v
  | HdrGetN _ h | HdrRead _ h | HdrSignature h | HdrGetT _ h | HdrGetR _ _ h | HdrGetReturns h _ => of_h h
  | PtGetN _ p | PtGetR _ p | PtGetTime p | PtGetColor p | PtGetData p _ => of_p p
  | _ => ONone
  end.
Definition vnum_eqb (a b : vnum) : bool := match a, b with VRecordLength, VRecordLength | VRecordId, VRecordId | VReserved, VReserved => true | _, _ => false end.
Definition vtext_eqb (a b : vtext) : bool := match a, b with VUserId, VUserId | VDescription, VDescription => true | _, _ => false end.
Definition hnum_eqb (a b : hnum) : bool :=
  match a, b with HFileSourceId, HFileSourceId | HReserved, HReserved | HVersionMajor, HVersionMajor | HVersionMinor, HVersionMinor | HCreationDOY, HCreationDOY
  | HCreationYear, HCreationYear | HDataOffset, HDataOffset | HHeaderPadding, HHeaderPadding | HPointRecordsCount, HPointRecordsCount | HDataFormatId, HDataFormatId => true | _, _ => false end.
Definition htext_eqb (a b : htext) : bool := match a, b with HSystemId, HSystemId | HSoftwareId, HSoftwareId => true | _, _ => false end.
Definition hreal_eqb (a b : hreal) : bool := match a, b with HScale, HScale | HOffset, HOffset | HMin, HMin | HMax, HMax => true | _, _ => false end.
Definition axis_eqb (a b : axis) : bool := match a, b with AX, AX | AY, AY | AZ, AZ => true | _, _ => false end.
(** getters on the object of setter c whose answer c is meant to change *)
Definition disturbs (c g : call) : bool :=
  match c, g with
  | VlrSetN a _ _, VlrGetN b _ => vnum_eqb a b
  | VlrSetN a _ _, VlrGetData _ _ => vnum_eqb a VRecordLength
  | VlrSetT a _ _, VlrGetT b _ => vtext_eqb a b
  | VlrSetData _ _ _, VlrGetData _ _ => true
  | HdrSetN a _ _, HdrGetN b _ => hnum_eqb a b
  | HdrSetN HDataFormatId _ _, HdrRead HDataRecordLength _ => true
  | HdrSetT a _ _, HdrGetT b _ => htext_eqb a b
  | HdrSetR a _ _ _ _, HdrGetR b _ _ => hreal_eqb a b
  | HdrSetReturns _ i _, HdrGetReturns _ j => Z.eqb i j
  | HdrAddVlr _ _, HdrRead HRecordsCount _ | HdrDeleteVlr _ _, HdrRead HRecordsCount _ => true
  | PtSetN a _ _, PtGetN b _ => overlapping (pattr a) (pattr b)
  | PtSetN (PRaw a) _ _, PtGetR b _ => axis_eqb a b
  | PtSetR a _ _, PtGetN (PRaw b) _ => axis_eqb a b
  | PtSetR a _ _, PtGetR b _ => axis_eqb a b
  | PtSetTime _ _, PtGetTime _ | PtSetColor _ _, PtGetColor _ => true
  | PtSetData _ _, _ => true
  | (PtSetN _ _ _ | PtSetR _ _ _ | PtSetTime _ _ | PtSetColor _ _), PtGetData _ _ => true
  | _, _ => false
  end.
(** a point attribute is given a value that fits its field *)
Definition fits (c : call) : Prop := match c with PtSetN a _ x => pnum_fits a x | _ => True end.

(** ** C61: reading through the C API

    After each request the caller looks at the bytes of the current point. *)
Definition request (n : nat) (o : rop) : list call :=
  match o with RNext => [RdNext (At n)] | RAt i => [RdAt (At n) i] | RSeek i => [RdSeek (At n) i] | RReset => [] end.
Definition reply (n : nat) (o : rop) (a : rans) : res :=
  match o with
  | RSeek _ => match a with ATrue | AError _ => Num 0 | AFalse => Num 3 end
  | _ => match a with ATrue => PPtr (PRd n) | _ => PPtr PNull end
  end.
Definition looks (n room : nat) (ops : list rop) : list call := flat_map (fun o => request n o ++ [PtGetData (PRd n) room]) ops.
Definition sees (n : nat) (ops : list rop) (l : list (rans * list Z)) : list res := flat_map (fun x => [reply n (fst x) (fst (snd x)); Bytes (snd (snd x))]) (combine ops l).
(** GetNextPoint and Seek *)
Definition next_or_seek (o : rop) : Prop := match o with RNext => True | RSeek i => in_unsigned 32 i | _ => False end.

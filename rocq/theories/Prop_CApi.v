(** C57-C61: the C API. *)
From Coq Require Import ZArith List Bool String Lia Reals.
Import ListNotations.
From Verif Require Import Outcome Bytes CStr Float64 Float64_Proofs Endian_Model Classif_Model Vlr_Model Schema_Model Header_Model Point_Model Point_Spec Point_Api Coord_Api Stream_Model Reader_Model Reader_Api IO_Spec Reader_Spec Reader_Hist Writer_Append Prop_Reader IO_Samples CApi_Model CApi_Spec CApi_Proofs CApi_Safe CApi_More CApi_Store CApi_Read.
Local Open Scope Z_scope.
Local Notation length := List.length (only parsing).
Local Notation axis_of := CApi_Model.axis_of.

Lemma reached_sound dh xml doy year s : default_ok dh -> reached dh xml doy year s -> sound dh xml s.
Proof.
  intros (A & B) (l & rs & C & E). destruct (run_safe dh xml doy year A B l c_start (sound_start dh xml) C) as (t & rs' & E' & _ & S). rewrite E in E'. apply pair_ok in E' as (<- & _). exact S.
Qed.

(** ** C57: how a call ends and what it reports *)

(** Every call that returns, except LASReader_Seek and the calls about errors,
    either reports nothing (and a function with a status returns LE_None) or leaves
    one new error that names it, returns its documented failure value and, if it
    returns a status, has changed nothing (LASHeader_SetDataFormatId apart). *)
Theorem C57_reports_partial : forall dh xml doy year s c t r,
  about_errors c = false -> is_seek_call c = false -> cstep dh xml doy year s c = Ok (t, r) ->
  (c_errs t = c_errs s /\ (returns_status c = true -> r = Num 0)) \/
  (error_added c s t /\ failure_answer c r /\ (returns_status c = true -> sets_format c = false -> same_objects s t)).
Proof. intros dh xml doy year s c t r A S. exact (reports dh xml doy year s c A S t r). Qed.
Print Assumptions C57_reports_partial.

(** No C++ exception leaves a call (LASPoint_SetHeader is not covered). *)
Theorem C57_contained_partial : forall dh xml doy year s c e, (forall n h, c <> PtSetHeader n h) -> cstep dh xml doy year s c <> Throw e.
Proof. intros dh xml doy year s c e N. exact (contained dh xml doy year s c N e). Qed.
Print Assumptions C57_contained_partial.

(** A function with a status fails exactly on the arguments the library refuses. *)
Theorem C57_refused : forall dh xml doy year s c t r, default_ok dh -> reached dh xml doy year s -> careful dh xml s c -> returns_status c = true ->
  cstep dh xml doy year s c = Ok (t, r) -> (r = Num 3 <-> refused s c \/ null_handle c).
Proof. intros dh xml doy year s c t r D R C S. apply (refusals dh xml doy year (proj1 D) s c (reached_sound _ _ _ _ _ D R) C S). Qed.
Print Assumptions C57_refused.

(** Where the reports are wrong. *)

Lemma three_readable xml : readable xml three.
Proof.
  destruct three_ok as ((LF & NS & FS & CO) & _ & _ & RL). split; [exact LF|]. split; [now apply plain_standard|]. split; [exact FS|]. split; [exact CO|]. rewrite RL. vm_compute. discriminate.
Qed.
(** LASReader_Seek past the end reports an error and returns LE_None; LASReader_Seek
    on a null reader returns LE_None too. *)
Theorem C57_seek_refuted : forall dh xml doy year, exists t,
  crun dh xml doy year c_start [RdCreate three; RdSeek (At 0) 100] = Ok (t, [RPtr (At 0); Num 0]) /\ c_errs t = [mkErr 3 "LASReader_Seek"] /\
  forall s i, exists u, cstep dh xml doy year s (RdSeek Null i) = Ok (u, Num 0) /\ c_errs u = mkErr 3 "LASReader_Seek" :: c_errs s.
Proof.
  intros dh xml doy year. destruct (create_run dh xml doy year three c_start (three_readable xml)) as (t & x & C & E & RC & D & EE). cbn [c_rdrs c_start length] in C, E.
  cbn [crun]. rewrite C. cbn [obind]. unfold cstep. cbv zeta. cbn [valid]. unfold object. rewrite E. cbn [obind].
  assert (Z : r_size x = 3) by (destruct RC as ((_ & _ & _ & _ & Z & _) & _); rewrite Z; vm_compute; reflexivity).
  unfold reader_seek. rewrite Z. cbn [obind fst]. eexists. split; [reflexivity|]. split; [cbn [push c_errs set_errs set_rdrs]; now rewrite EE|].
  intros s i. eexists. split; [reflexivity|]. reflexivity.
Qed.
Print Assumptions C57_seek_refuted.
(** LASPoint_IsValid on a null point answers 3, which a C program reads as true. *)
Theorem C57_is_valid_refuted : forall dh xml doy year s, exists t, cstep dh xml doy year s (PtIsValid PNull) = Ok (t, Num 3).
Proof. intros. eexists. reflexivity. Qed.
Print Assumptions C57_is_valid_refuted.
(** The null check of the LASHeader functions dereferences the null pointer. *)
Theorem C57_null_header_refuted : forall dh xml doy year s c,
  (exists a, c = HdrGetN a Null) \/ (exists a, c = HdrRead a Null) \/ (exists a, c = HdrGetT a Null) \/ (exists a t, c = HdrSetT a Null t) \/ c = HdrSignature Null \/ (exists a i, c = HdrGetR a i Null) \/
  (exists i, c = HdrGetVlr Null i) \/ (exists v, c = HdrAddVlr Null v) -> cstep dh xml doy year s c = UB UBNull.
Proof. intros dh xml doy year s c [(a & ->)|[(a & ->)|[(a & ->)|[(a & t & ->)|[->|[(a & i & ->)|[(i & ->)|(v & ->)]]]]]]]; reflexivity. Qed.
Print Assumptions C57_null_header_refuted.

(** ** C58: the error stack *)

(** As long as nobody resets or pops, every error stays, newest on top. *)
Theorem C58_history : forall dh xml doy year l s t rs,
  forallb (fun c => negb (removes_errors c)) l = true -> crun dh xml doy year s l = Ok (t, rs) -> exists new, c_errs t = new ++ c_errs s.
Proof. exact run_errs. Qed.
Print Assumptions C58_history.
(** The last error is the one of the last failed call. *)
Theorem C58_last_error : forall dh xml doy year c s t, error_added c s t -> Z.of_nat (length (c_errs t)) < 2 ^ 31 ->
  cstep dh xml doy year t ErrCode = Ok (t, Num 3) /\ (exists m, cstep dh xml doy year t ErrMethod = Ok (t, Text (Some (str m))) /\ String.prefix (name_of c) m = true) /\
  cstep dh xml doy year t ErrCount = Ok (t, Num (Z.of_nat (length (c_errs s)) + 1)) /\
  exists u, cstep dh xml doy year t ErrPop = Ok (u, Nothing) /\ c_errs u = c_errs s /\ same_objects t u.
Proof.
  intros dh xml doy year c s t (e & E & C & P) L. unfold cstep. cbv zeta. rewrite E in *. cbn [List.length] in *. split; [now rewrite C|]. split; [eexists; split; [reflexivity|exact P]|]. split.
  - unfold to_signed. rewrite Z.mod_small by lia. destruct (_ <? _) eqn:B; [do 3 f_equal; lia|]. apply Z.ltb_ge in B. change (2 ^ (32 - 1)) with (2 ^ 31) in B. lia.
  - eexists. split; [reflexivity|]. split; [reflexivity|]. repeat split.
Qed.
Print Assumptions C58_last_error.
(** LASError_Reset leaves the older half of the errors. *)
Theorem C58_reset_exact : forall dh xml doy year s, exists t, cstep dh xml doy year s ErrReset = Ok (t, Nothing) /\
  c_errs t = skipn ((length (c_errs s) + 1) / 2) (c_errs s) /\ same_objects s t.
Proof. intros. eexists. split; [reflexivity|]. split; [apply reset_spec|]. repeat split. Qed.
Print Assumptions C58_reset_exact.
Theorem C58_reset_refuted : forall dh xml doy year, exists t,
  crun dh xml doy year c_start [VlrGetN VRecordId Null; PtGetN PIntensity PNull; ErrReset; ErrCount; ErrMethod] = Ok (t, [Num 0; Num 0; Nothing; Num 1; Text (Some (str "LASVLR_GetRecordId"))]).
Proof. intros. eexists. reflexivity. Qed.
Print Assumptions C58_reset_refuted.

(** ** C59: what is set can be got back *)

Theorem C59_set_get : forall dh xml doy year s c g v t, default_ok dh -> reached dh xml doy year s -> careful dh xml s c ->
  stores dh s c g v -> cstep dh xml doy year s c = Ok (t, Num 0) -> cstep dh xml doy year t g = Ok (t, v).
Proof. intros dh xml doy year s c g v t D R. apply (set_get dh xml doy year (proj1 D)). now apply (reached_sound dh xml doy year). Qed.
Print Assumptions C59_set_get.
(** every other getter of the same object answers as before *)
Theorem C59_others : forall dh xml doy year s c g t r a, default_ok dh -> reached dh xml doy year s -> careful dh xml s c -> fits c -> returns_status c = true ->
  asks g = may_change c -> asks g <> ONone -> disturbs c g = false ->
  cstep dh xml doy year s c = Ok (t, r) -> cstep dh xml doy year s g = Ok (s, a) -> cstep dh xml doy year t g = Ok (t, a).
Proof. intros dh xml doy year s c g t r a D R. apply (set_frame dh xml doy year (proj1 D)). now apply (reached_sound dh xml doy year). Qed.
Print Assumptions C59_others.
(** a coordinate comes back within its resolution *)
Theorem C59_coordinates : forall dh xml doy year s a p v q t, default_ok dh -> reached dh xml doy year s -> careful dh xml s (PtSetR a p v) -> live_pt dh s p q ->
  cstep dh xml doy year s (PtSetR a p v) = Ok (t, Num 0) ->
  exists x, cstep dh xml doy year t (PtGetR a p) = Ok (t, Real x) /\ f64_fin x = true /\
    (Rabs (f64_R x - f64_R v) <= Rabs (f64_R (axis_of a (h_scale (p_hdr q)))) * (/ 2 + / 131072) + / 9007199254740992 * Rabs (f64_R (axis_of a (h_offset (p_hdr q)))))%R.
Proof. intros dh xml doy year s a p v q t D R. apply (set_coord_c dh xml doy year (proj1 D)). now apply (reached_sound dh xml doy year). Qed.
Print Assumptions C59_coordinates.

(** VLR data come back once the record length is set as well. *)
Theorem C59_vlr_data : forall dh xml doy year s n x d len room, nth_error (c_vlrs s) n = Some (Some x) ->
  0 <= len < 65536 -> len <= Z.of_nat (length d) -> len <= Z.of_nat room ->
  exists t, crun dh xml doy year s [VlrSetData (At n) d len; VlrSetN VRecordLength (At n) len; VlrGetN VRecordLength (At n); VlrGetData (At n) room] =
    Ok (t, [Num 0; Num 0; Num len; Bytes (firstn (Z.to_nat len) d)]).
Proof.
  intros dh xml doy year s n x d len room E L LD LR. cbn [crun]. unfold cstep. cbv zeta. cbn [valid]. unfold object at 1. rewrite E. cbn [obind].
  rewrite (proj2 (Nat.ltb_ge _ _)) by lia. cbn [obind]. unfold object at 1. cbn [c_vlrs set_vlrs]. unfold put at 1. rewrite (set_same _ _ _ _ E). cbn [obind c_vlrs set_vlrs].
  set (y := vnum_set VRecordLength (vlr_set_data x (firstn (Z.to_nat len) d)) len). unfold object.
  assert (Y : nth_error (put (put (c_vlrs s) n (vlr_set_data x (firstn (Z.to_nat len) d))) n y) n = Some (Some y)) by (eapply set_same; eapply set_same; exact E).
  rewrite Y. cbn [obind c_vlrs set_vlrs]. rewrite Y. cbn [obind].
  assert (SZ : v_size y = len) by (unfold y; cbn [vnum_set vlr_set_size v_size]; apply Z.mod_small; lia). assert (DT : v_data y = firstn (Z.to_nat len) d) by reflexivity.
  rewrite SZ, DT. rewrite (proj2 (Nat.ltb_ge (length (firstn (Z.to_nat len) d)) _)) by (rewrite firstn_length; lia). rewrite (proj2 (Nat.ltb_ge room _)) by lia.
  cbn [orb obind vnum_get]. rewrite SZ, firstn_firstn, Nat.min_id. eexists. reflexivity.
Qed.
Print Assumptions C59_vlr_data.
(** A VLR added to a header is its last; the record count goes up by one; the header
    keeps a copy. *)
Theorem C59_add_vlr : forall dh xml doy year s n m h v, nth_error (c_hdrs s) n = Some (Some (Some h)) -> nth_error (c_vlrs s) m = Some (Some v) ->
  0 <= h_nvlr h < 2 ^ 32 - 1 ->
  exists t u, crun dh xml doy year s [HdrRead HRecordsCount (At n); HdrAddVlr (At n) (At m); VlrDestroy (At m); HdrRead HRecordsCount (At n)] = Ok (t, [Num (h_nvlr h); Num 0; Nothing; Num (h_nvlr h + 1)]) /\
    cstep dh xml doy year t (HdrGetVlr (At n) (Z.of_nat (length (h_vlrs h)))) = Ok (u, VPtr (At (length (c_vlrs t)))) /\ live_vlr u (At (length (c_vlrs t))) v.
Proof.
  intros dh xml doy year s n m h v E V L. cbn [crun]. unfold cstep. cbv zeta. cbn [hdr_valid valid]. unfold object at 1. rewrite E. cbn [obind]. unfold object at 1. rewrite E. cbn [obind]. unfold object at 1. rewrite V. cbn [obind].
  unfold put_hdr. cbn [c_vlrs set_hdrs c_hdrs]. unfold object at 1. rewrite V. cbn [obind]. cbn [c_hdrs set_vlrs set_hdrs c_vlrs].
  assert (Y : nth_error (put (c_hdrs s) n (Some (add_vlr h v))) n = Some (Some (Some (add_vlr h v)))) by (eapply set_same; exact E).
  unfold object at 1. rewrite Y. cbn [obind]. eexists _, _. split; [|split].
  - assert (K : hread_get HRecordsCount (add_vlr h v) = h_nvlr h + 1) by (cbn [hread_get]; unfold add_vlr; cbn [h_upd_vlrs h_nvlr]; apply Z.mod_small; lia).
    rewrite K. reflexivity.
  - cbn [c_hdrs set_vlrs set_hdrs c_vlrs]. unfold object at 1. rewrite Y. cbn [obind].
    assert (K : get_vlr (add_vlr h v) (Z.of_nat (length (h_vlrs h))) = Ok v) by (unfold get_vlr, add_vlr; cbn [h_upd_vlrs h_vlrs]; rewrite Nat2Z.id, nth_error_app2, Nat.sub_diag by lia; reflexivity).
    rewrite K. cbn [obind]. unfold new_vlr. cbn [c_vlrs set_vlrs]. reflexivity.
  - eexists. split; [reflexivity|]. cbn [c_vlrs set_vlrs]. rewrite nth_error_app2, Nat.sub_diag by lia. reflexivity.
Qed.
Print Assumptions C59_add_vlr.
(** Where it fails: LASVLR_SetData does not set the record length, so the data of a
    new VLR cannot be read back; a record length beyond the data makes LASVLR_GetData
    read out of bounds; the sixth and seventh return counts can be set but not got. *)
Theorem C59_data_refuted : forall dh xml doy year, exists t,
  crun dh xml doy year c_start [VlrCreate; VlrSetData (At 0) [1; 2; 3] 3; VlrGetN VRecordLength (At 0); VlrGetData (At 0) 3] = Ok (t, [VPtr (At 0); Num 0; Num 0; Bytes []]) /\
  crun dh xml doy year c_start [VlrCreate; VlrSetData (At 0) [1; 2; 3] 3; VlrSetN VRecordLength (At 0) 4; VlrGetData (At 0) 100] = UB UBOutOfBounds.
Proof. intros. eexists. split; reflexivity. Qed.
Print Assumptions C59_data_refuted.
Theorem C59_returns_refuted : forall dh xml doy year s n h i x, nth_error (c_hdrs s) n = Some (Some (Some h)) -> length (h_byret h) = 7%nat -> 5 <= i <= 6 ->
  exists t, crun dh xml doy year s [HdrSetReturns (At n) i x; HdrGetReturns (At n) i] = Ok (t, [Num 0; Num 0]).
Proof.
  intros dh xml doy year s n h i x E L I. cbn [crun]. unfold cstep. cbv zeta. cbn [hdr_valid]. unfold object at 1. rewrite E. cbn [obind]. unfold tried.
  assert (K : exists h', set_by_return h (i mod 2 ^ 64) x = Ok h').
  { unfold set_by_return. rewrite (Z.mod_small i) by lia. rewrite L. rewrite (proj2 (Z.leb_le 0 i)), (proj2 (Z.ltb_lt i _)) by lia. eexists. reflexivity. }
  destruct K as (h' & K). rewrite K. cbn [obind]. unfold put_hdr. cbn [c_hdrs set_hdrs]. unfold object at 1, put. rewrite (set_same (c_hdrs s) n (Some (Some h')) _ E). cbn [obind].
  rewrite (proj2 (Z.ltb_ge i 5)) by lia. cbn [andb obind]. eexists. reflexivity.
Qed.
Print Assumptions C59_returns_refuted.

(** ** C60: no crash without a mistake of the caller, and no side effects *)

(** A program that passes live handles (or null where null is checked), room enough
    for what it asks for, and does not pull a header from under a point, never hits
    undefined behaviour and never sees an exception. *)
Theorem C60_safe : forall dh xml doy year l, default_ok dh -> careful_run dh xml doy year c_start l ->
  exists t rs, crun dh xml doy year c_start l = Ok (t, rs) /\ length rs = length l.
Proof.
  intros dh xml doy year l (A & B) C. destruct (run_safe dh xml doy year A B l c_start (sound_start dh xml) C) as (t & rs & E & L & _). eauto.
Qed.
Print Assumptions C60_safe.
(** A call changes at most the object it is meant to change. *)
Theorem C60_frame : forall dh xml doy year s c t r, cstep dh xml doy year s c = Ok (t, r) -> same_but (may_change c) s t.
Proof. intros dh xml doy year s c t r E. exact (frame dh xml doy year s c t r E). Qed.
Print Assumptions C60_frame.

(** Where it fails: a point keeps the address of a header it does not own. *)
Lemma fresh_point_header dh h : set_header (point_new dh) h = Ok (mkPoint (repeat 0 (Z.to_nat (get_record_length h))) h).
Proof. unfold set_header, point_new. cbn [p_data]. rewrite zsum_repeat0. reflexivity. Qed.
Lemma put_header dh xml doy year h s :
  c_hdrs s = [Some (Some h)] -> c_pts s = [Some (mkCP (p_data (point_new dh)) HDefault)] ->
  cstep dh xml doy year s (PtSetHeader 0 (At 0)) = Ok (set_pts s [Some (mkCP (repeat 0 (Z.to_nat (get_record_length h))) (HObj 0))], Nothing).
Proof.
  intros H P. unfold cstep. cbv zeta. cbn [valid]. rewrite H. cbn [object nth_error obind]. cbn [point_at]. rewrite P. cbn [object nth_error obind header_of cp_hdr cp_data].
  assert (K : set_header (mkPoint (p_data (point_new dh)) dh) h = Ok (mkPoint (repeat 0 (Z.to_nat (get_record_length h))) h)) by exact (fresh_point_header dh h).
  rewrite K. reflexivity.
Qed.
Theorem C60_dangling_refuted : forall dh xml doy year,
  crun dh xml doy year c_start [HdrCreate; PtCreate; PtSetHeader 0 (At 0); HdrDestroy (At 0); PtGetR AX (POwn 0)] = UB UBNull.
Proof.
  intros. destruct (header_new_wf doy year) as (h & EH & W & LO).
  cbn [crun]. unfold cstep at 1. cbv zeta. rewrite EH. cbn [obind]. unfold cstep at 1. cbv zeta. cbn [obind]. unfold new_hdr, new_pt. cbn [c_start set_hdrs set_pts c_hdrs c_pts c_errs c_vlrs c_rdrs app length].
  rewrite (put_header dh xml doy year h) by reflexivity. cbn [obind]. reflexivity.
Qed.
Print Assumptions C60_dangling_refuted.
(** Changing the format of a header leaves the points that use it with records of the
    old length. *)
Lemma to_short h : exists sc3, schema_new 3 = Ok sc3 /\ (h_schema h = sc3 -> exists h0 h3,
  set_header_format h 0 = (h0, Ok tt) /\ get_record_length h0 = 20 /\ set_header_format h0 3 = (h3, Ok tt) /\ get_format h3 = 3).
Proof.
  assert (K : is_ok (schema_new 3) = true) by (vm_compute; reflexivity). destruct (schema_new 3) as [sc|e|u] eqn:E; try discriminate K. exists sc. split; [reflexivity|]. intros H.
  assert (A : match schema_new 3 with Ok sc => match set_format sc 0 with (s0, Ok _) => schema_bytes s0 mod 2 ^ 16 = 20 /\ match set_format s0 3 with (s3, Ok _) => s_format s3 = 3 | _ => False end | _ => False end | _ => False end) by (vm_compute; auto).
  rewrite E in A. unfold set_header_format. rewrite H. destruct (set_format sc 0) as (s0, [[]|e|u]); try contradiction. destruct A as (L & A).
  exists (h_upd_schema h s0). destruct (set_format s0 3) as (s3, [[]|e|u]) eqn:S3; try contradiction.
  exists (h_upd_schema (h_upd_schema h s0) s3). split; [reflexivity|]. split; [exact L|]. split; [|exact A]. cbn [h_schema h_upd_schema]. rewrite S3. reflexivity.
Qed.
Theorem C60_format_refuted : forall dh xml doy year,
  crun dh xml doy year c_start [HdrCreate; HdrSetN HDataFormatId (At 0) 0; PtCreate; PtSetHeader 0 (At 0); HdrSetN HDataFormatId (At 0) 3; PtGetTime (POwn 0)] = UB UBOutOfBounds.
Proof.
  intros. destruct (header_new_wf doy year) as (h & EH & _). destruct (to_short h) as (sc3 & S3 & K).
  assert (HS : h_schema h = sc3). { unfold header_new in EH. rewrite S3 in EH. cbn [obind] in EH. apply Ok_inj in EH. rewrite <- EH. reflexivity. }
  destruct (K HS) as (h0 & h3 & F0 & L0 & F3 & G3). clear K.
  cbn [crun]. unfold cstep at 1. cbv zeta. rewrite EH. cbn [obind]. unfold cstep at 1. cbv zeta. cbn [obind]. unfold new_hdr at 1. cbn [c_start set_hdrs c_hdrs c_errs c_vlrs c_rdrs c_pts app length].
  cbn [valid object nth_error obind]. cbn [hnum_set]. rewrite F0. cbn [obind].
  unfold cstep at 1. cbv zeta. cbn [obind]. unfold put_hdr, new_pt, new_hdr. cbn [c_start set_hdrs set_pts c_hdrs c_pts c_errs c_vlrs c_rdrs app length]. unfold put at 1. cbn [list_set].
  rewrite (put_header dh xml doy year h0) by reflexivity. cbn [obind]. rewrite L0. unfold cstep at 1. cbv zeta. cbn [c_hdrs set_pts set_hdrs c_start valid object nth_error obind]. cbn [hnum_set].
  rewrite F3. cbn [obind].
  unfold cstep at 1. cbv zeta. cbn [pt_valid point_at]. unfold put_hdr, put. cbn [c_pts set_hdrs set_pts object nth_error obind cp_hdr cp_data header_of]. unfold header_at. cbn [c_hdrs set_hdrs set_pts list_set object nth_error obind].
  assert (G : get_time (mkPoint (repeat 0 (Z.to_nat 20)) h3) = UB UBOutOfBounds) by (unfold get_time, p_format; cbn [p_hdr p_data]; rewrite G3; vm_compute; reflexivity).
  rewrite G. reflexivity.
Qed.
Print Assumptions C60_format_refuted.
(** LASPoint_Equal compares addresses: a copy of a point is not equal to it. *)
Theorem C60_equal_refuted : forall dh xml doy year, exists t,
  crun dh xml doy year c_start [PtCreate; PtCopy (POwn 0); PtEqual (POwn 0) (POwn 1); PtEqual (POwn 0) (POwn 0)] = Ok (t, [PPtr (POwn 0); PPtr (POwn 1); Num 0; Num 1]).
Proof. intros. eexists. reflexivity. Qed.
Print Assumptions C60_equal_refuted.

(** ** C61: reading *)

(** Whatever a program asks of a reader it created, it gets the answers and the points
    the C++ reader gives; so everything proved about that reader holds here too. *)
Theorem C61_same_as_cpp : forall dh xml doy year F s ops room, readable xml F -> f_reclen F <= Z.of_nat room -> Forall rop_ok ops -> Forall (fun o => o <> RReset) ops ->
  exists r r1 obs t, reader_open xml doy year F = Ok r /\ rops_run xml r ops = Ok (r1, obs) /\
    crun dh xml doy year s (RdCreate F :: looks (length (c_rdrs s)) room ops) = Ok (t, RPtr (At (length (c_rdrs s))) :: sees (length (c_rdrs s)) ops obs).
Proof. exact c_same. Qed.
Print Assumptions C61_same_as_cpp.
(** In particular GetNextPoint and Seek in any order read the records at the cursor. *)
Theorem C61_cursor : forall dh xml doy year F s ops room, readable xml F -> f_reclen F <= Z.of_nat room -> Forall next_or_seek ops ->
  exists t, crun dh xml doy year s (RdCreate F :: looks (length (c_rdrs s)) room ops) =
    Ok (t, RPtr (At (length (c_rdrs s))) :: sees (length (c_rdrs s)) ops (cur_run F (0, repeat 0 (Z.to_nat (f_reclen F))) ops)).
Proof. exact c_reading. Qed.
Print Assumptions C61_cursor.
(** LASReader_GetNextPoint until it returns NULL sees every record of the file once,
    in order, and no error is reported. *)
Theorem C61_all_points : forall dh xml doy year F s room, readable xml F -> f_reclen F <= Z.of_nat room ->
  let n := length (c_rdrs s) in
  exists t, crun dh xml doy year s (RdCreate F :: flat_map (fun _ => [RdNext (At n); PtGetData (PRd n) room]) (seq 0 (Z.to_nat (f_npts F))) ++ [RdNext (At n)]) =
    Ok (t, RPtr (At n) :: flat_map (fun rec => [PPtr (PRd n); Bytes rec]) (records_from F 0) ++ [PPtr PNull]) /\ c_errs t = c_errs s.
Proof. exact c_all_points. Qed.
Print Assumptions C61_all_points.
(** The handle GetNextPoint returns is the same each time: the first point a caller
    kept becomes the second. *)
Theorem C61_alias_refuted : forall dh xml doy year, exists t,
  crun dh xml doy year c_start [RdCreate three; RdNext (At 0); PtGetData (PRd 0) 100; RdNext (At 0); PtGetData (PRd 0) 100; PtEqual (PRd 0) (PRd 0)] =
  Ok (t, [RPtr (At 0); PPtr (PRd 0); Bytes (rec_of 7); PPtr (PRd 0); Bytes (rec_of 8); Num 1]).
Proof.
  intros dh xml doy year. destruct (c_reading dh xml doy year three c_start [RNext; RNext] 100 (three_readable xml)) as (t & C).
  { destruct three_ok as (_ & _ & _ & RL). rewrite RL. vm_compute. discriminate. } { repeat apply Forall_cons; try apply Forall_nil; exact I. }
  exists t. cbn [c_start c_rdrs length] in C. 
  assert (A : sees 0 [RNext; RNext] (cur_run three (0, repeat 0 (Z.to_nat (f_reclen three))) [RNext; RNext]) = [PPtr (PRd 0); Bytes (rec_of 7); PPtr (PRd 0); Bytes (rec_of 8)]) by (vm_compute; reflexivity).
  rewrite A in C. cbn [looks flat_map request app] in C.
  change [RdCreate three; RdNext (At 0); PtGetData (PRd 0) 100; RdNext (At 0); PtGetData (PRd 0) 100; PtEqual (PRd 0) (PRd 0)] with ([RdCreate three; RdNext (At 0); PtGetData (PRd 0) 100; RdNext (At 0); PtGetData (PRd 0) 100] ++ [PtEqual (PRd 0) (PRd 0)]).
  rewrite crun_app, C. reflexivity.
Qed.
Print Assumptions C61_alias_refuted.

(** ** Instances *)
Example default_instance : exists dh, default_ok dh.
Proof. destruct (header_new_wf 1 2012) as (h & _ & W & L). exists h. split; assumption. Qed.

Lemma careful_cons dh xml doy year s c l t r : careful dh xml s c -> cstep dh xml doy year s c = Ok (t, r) -> careful_run dh xml doy year t l -> careful_run dh xml doy year s (c :: l).
Proof. intros C E R. split; [exact C|]. intros t' r' E'. rewrite E in E'. apply pair_ok in E' as (<- & _). exact R. Qed.
(** a program that builds a VLR, adds it to a header, and fills a point *)
Definition a_program : list call :=
  [VlrCreate; VlrSetN VRecordId (At 0) 7; VlrSetT VUserId (At 0) (Some [97; 98; 99; 0]); VlrSetT VUserId (At 0) (Some (repeat 97 17)); HdrCreate; HdrAddVlr (At 0) (At 0); HdrAddVlr (At 0) Null; PtCreate; PtSetN PIntensity (POwn 0) 9].
Example program_instance : forall dh xml, careful_run dh xml 1 2012 c_start a_program.
Proof.
  intros dh xml. destruct (header_new_wf 1 2012) as (h & EH & _).
  eapply careful_cons; [exact I|reflexivity|]. cbn [new_vlr c_start fst snd set_vlrs c_vlrs c_errs c_hdrs c_pts c_rdrs app].
  eapply careful_cons; [right; eexists; exists 0%nat; split; reflexivity|reflexivity|].
  eapply careful_cons; [right; split; [eexists; exists 0%nat; split; reflexivity|exists [97; 98; 99; 0]; split; [reflexivity|apply IO_Samples.bytes_okb_ok; reflexivity]]|reflexivity|].
  eapply careful_cons; [right; split; [eexists; exists 0%nat; split; reflexivity|exists (repeat 97 17); split; [reflexivity|apply IO_Samples.bytes_okb_ok; reflexivity]]|reflexivity|].
  eapply careful_cons; [exact I|unfold cstep; cbv zeta; rewrite EH; reflexivity|].
  eapply careful_cons; [split; [eexists; exists 0%nat; split; reflexivity|right; eexists; exists 0%nat; split; reflexivity]|reflexivity|].
  eapply careful_cons; [split; [eexists; exists 0%nat; split; reflexivity|left; reflexivity]|reflexivity|].
  eapply careful_cons; [exact I|reflexivity|].
  split; [|intros; exact I]. right. exists (point_new dh). cbn [live_pt]. eexists. split; [reflexivity|]. split; reflexivity.
Qed.
Example C60_safe_instance : exists dh t rs, default_ok dh /\ crun dh (fun _ => Throw ERuntime) 1 2012 c_start a_program = Ok (t, rs) /\ length rs = 9%nat.
Proof.
  destruct default_instance as (dh & D). destruct (C60_safe dh (fun _ => Throw ERuntime) 1 2012 a_program D (program_instance dh _)) as (t & rs & E & L). exists dh, t, rs. auto.
Qed.
(** a reached state in which C57_refused, C59_set_get and C59_others apply *)
Example C59_instance : exists dh s t, default_ok dh /\ reached dh (fun _ => Throw ERuntime) 1 2012 s /\
  careful dh (fun _ => Throw ERuntime) s (VlrSetN VReserved (At 0) 43) /\ stores dh s (VlrSetN VReserved (At 0) 43) (VlrGetN VReserved (At 0)) (Num 43) /\
  cstep dh (fun _ => Throw ERuntime) 1 2012 s (VlrSetN VReserved (At 0) 43) = Ok (t, Num 0) /\
  cstep dh (fun _ => Throw ERuntime) 1 2012 s (VlrGetN VRecordId (At 0)) = Ok (s, Num 7) /\
  disturbs (VlrSetN VReserved (At 0) 43) (VlrGetN VRecordId (At 0)) = false /\ asks (VlrGetN VRecordId (At 0)) = may_change (VlrSetN VReserved (At 0) 43).
Proof.
  destruct default_instance as (dh & D). exists dh. 
  assert (R : exists s, crun dh (fun _ => Throw ERuntime) 1 2012 c_start [VlrCreate; VlrSetN VRecordId (At 0) 7] = Ok (s, [VPtr (At 0); Num 0]) /\ c_vlrs s = [Some (vlr_set_id vlr_new 7)]) by (eexists; split; reflexivity).
  destruct R as (s & R & V). exists s. eexists. split; [exact D|]. split.
  { exists [VlrCreate; VlrSetN VRecordId (At 0) 7], [VPtr (At 0); Num 0]. split; [|exact R].
    eapply careful_cons; [exact I|reflexivity|]. split; [|intros; exact I]. right; eexists; exists 0%nat; split; reflexivity. }
  split; [right; eexists; exists 0%nat; rewrite V; split; reflexivity|]. split; [constructor; split; [discriminate|reflexivity]|].
  split; [unfold cstep; cbv zeta; rewrite V; reflexivity|]. split; [unfold cstep; cbv zeta; rewrite V; reflexivity|]. split; reflexivity.
Qed.
Example C61_instance : forall xml, readable xml three /\ f_npts three = 3 /\ Forall rop_ok [RNext; RAt 2; RSeek 1; RNext] /\ Forall (fun o => o <> RReset) [RNext; RAt 2; RSeek 1; RNext].
Proof.
  intros xml. split; [apply three_readable|]. split; [vm_compute; reflexivity|]. split; repeat apply Forall_cons; try apply Forall_nil; try discriminate; cbn [rop_ok]; (exact I || discriminate).
Qed.

(** C65, C66: writing files through the C API. *)
From Coq Require Import ZArith List Bool String Lia.
Import ListNotations.
From Verif Require Import Outcome Bytes CStr Float64 Float64_Proofs Vlr_Model Schema_Model Header_Model Point_Model Point_Spec Stream_Model Writer_Model Writer_Api IO_Spec IO_Round IO_Extra IO_Samples Writer_RT Writer_Append
  Reader_Model Reader_Spec CApi_Model CApi_Spec CApi_Proofs CApi_Safe CApi_Store CApi_Read CApiW_Model CApiW_Spec CApiW_Proofs.
Local Open Scope Z_scope.
Local Notation length := List.length (only parsing).

(** ** C65 *)

(** Whatever else the program does in between, with this or other objects: the file
    is the one the C++ writer writes, in one session, from the header as it was when
    the writer was made and the accepted points as they were when they were
    accepted. *)
Theorem C65_same_as_cpp : forall sv dh xml doy year s f k mode s1 n calls s2 rs s3 r, not_open s f ->
  wstep sv dh xml doy year s (WCreate (Some f) (At k) mode) = Ok (s1, WPtr (At n)) ->
  wrun sv dh xml doy year s1 calls = Ok (s2, rs) -> Forall (only_points n f) calls ->
  wstep sv dh xml doy year s2 (WDestroy (At n)) = Ok (s3, r) ->
  exists h F, nth_error (c_hdrs (w_c s)) k = Some (Some (Some h)) /\
    write_session sv (kept_bytes s f mode) h (accepted sv dh xml doy year n s1 calls) = Ok F /\ w_files s3 f = Data F.
Proof. intros sv dh xml doy year s f k mode s1 n calls s2 rs s3 r _. apply c_session. Qed.
Print Assumptions C65_same_as_cpp.

(** Conversely, where the C++ writer completes, every call succeeds and reports
    nothing; no other file, object or writer changes. *)
Theorem C65_completes : forall sv dh xml doy year s f k h mode hs ps F,
  nth_error (c_hdrs (w_c s)) k = Some (Some (Some h)) -> mode = 1 \/ mode = 2 ->
  (w_files s f <> Denied) -> (mode = 2 -> w_files s f <> Missing) -> not_open s f ->
  Forall2 (live_pt dh (w_c s)) hs ps -> write_session sv (kept_bytes s f mode) h ps = Ok F ->
  let n := length (w_wrs s) in
  exists t, wrun sv dh xml doy year s (WCreate (Some f) (At k) mode :: map (WPoint (At n)) hs ++ [WDestroy (At n)]) =
      Ok (t, WPtr (At n) :: map (fun _ => R (Num 0)) hs ++ [R Nothing]) /\
    w_c t = w_c s /\ w_files t f = Data F /\ (forall g, g <> f -> w_files t g = w_files s g) /\
    (forall j, (j < n)%nat -> nth_error (w_wrs t) j = nth_error (w_wrs s) j).
Proof.
  intros sv dh xml doy year s f k h mode hs ps F EH M D1 D2 _ P W. apply (c_completes sv dh xml doy year s f k h mode hs ps F EH M D1 D2); [|exact W].
  clear -P. induction P as [|p q hs ps L P IH]; constructor; [|exact IH]. clear -L. destruct p as [|n|n]; cbn [live_pt point_at] in *.
  - contradiction.
  - destruct L as (x & X & D & H). apply header_for_of in H. unfold object. rewrite X. cbn [obind]. rewrite H. cbn [obind]. exists (cp_hdr x). rewrite D. destruct q; reflexivity.
  - destruct L as (r & X & ->). unfold object. rewrite X. cbn [obind]. eauto.
Qed.
Print Assumptions C65_completes.

(** Every call that returns either reports nothing (and a function with a status
    returns LE_None) or leaves one new error that names it and returns its failure
    value. *)
Theorem C65_reports : forall sv dh xml doy year s c t r, wabout_errors c = false -> wseek c = false -> wstep sv dh xml doy year s c = Ok (t, r) ->
  (c_errs (w_c t) = c_errs (w_c s) /\ (wstatus c = true -> r = R (Num 0))) \/ (werror_added c s t /\ wfailure c r).
Proof. intros sv dh xml doy year s c t r A B. exact (wreports sv dh xml doy year s c A B t r). Qed.
Print Assumptions C65_reports.
(** A call changes no writer but its own, and a file only by creating or destroying
    a writer on it. *)
Theorem C65_frame : forall sv dh xml doy year s c t r, wstep sv dh xml doy year s c = Ok (t, r) ->
  (forall k x, writer_of c <> At k -> nth_error (w_wrs s) k = Some x -> nth_error (w_wrs t) k = Some x) /\
  (forall g, w_files t g <> w_files s g ->
     (exists h mode, c = WCreate (Some g) h mode) \/ (exists n x, c = WDestroy (At n) /\ nth_error (w_wrs s) n = Some (Some x) /\ cw_file x = g)).
Proof. intros. eapply wframe. eassumption. Qed.
Print Assumptions C65_frame.
(** Destroying a writer twice is reported and harmless. *)
Theorem C65_destroy_twice : forall sv dh xml doy year s n t r u q, wstep sv dh xml doy year s (WDestroy (At n)) = Ok (t, r) ->
  wstep sv dh xml doy year t (WDestroy (At n)) = Ok (u, q) ->
  c_errs (w_c u) = mkErr 3 "LASWriter_Destroy" :: c_errs (w_c t) /\ w_wrs u = w_wrs t /\ forall g, w_files u g = w_files t g.
Proof.
  intros sv dh xml doy year s n t r u q E1 E2. unfold wstep in E1, E2. cbv zeta in E1, E2.
  assert (N : forall x, nth_error (w_wrs t) n <> Some (Some x)).
  { intros x X. destruct (nth_error (w_wrs s) n) as [[y|]|] eqn:Y.
    - destruct (writer_close (cw_w y)); try discriminate. apply pair_ok in E1 as (<- & _). cbn [set_file set_wrs w_wrs] in X. unfold drop in X. rewrite (set_same _ _ _ _ Y) in X. discriminate.
    - apply pair_ok in E1 as (<- & _). cbn [set_c w_wrs] in X. congruence.
    - apply pair_ok in E1 as (<- & _). cbn [set_c w_wrs] in X. congruence. }
  destruct (nth_error (w_wrs t) n) as [[y|]|] eqn:Y; [now elim (N y)| |]; apply pair_ok in E2 as (<- & _); repeat split.
Qed.
Print Assumptions C65_destroy_twice.

(** *** the writer's header *)

(** LASWriter_GetHeader gives a copy of the header last set. *)
Theorem C65_set_get_header : forall sv dh xml doy year s n k x h, nth_error (w_wrs s) n = Some (Some x) -> nth_error (c_hdrs (w_c s)) k = Some (Some (Some h)) ->
  exists t, wrun sv dh xml doy year s [WSetHeader (At n) (At k); WGetHeader (At n)] = Ok (t, [R Nothing; R (HPtr (At (length (c_hdrs (w_c s)))))]) /\
    nth_error (c_hdrs (w_c t)) (length (c_hdrs (w_c s))) = Some (Some (Some h)) /\ c_errs (w_c t) = c_errs (w_c s).
Proof.
  intros sv dh xml doy year s n k x h X H. cbn [wrun].
  assert (E : wstep sv dh xml doy year s (WSetHeader (At n) (At k)) = Ok (put_wr s n (with_hdr x h), R Nothing)).
  { unfold wstep. cbv zeta. unfold object. rewrite H, X. reflexivity. }
  rewrite E. cbn [obind]. unfold wstep. cbv zeta. unfold object. cbn [put_wr set_wrs w_wrs]. rewrite (put_same _ _ _ _ X). cbn [obind with_hdr cw_w w_hdr new_hdr].
  eexists. split; [reflexivity|]. cbn [set_c w_c put_wr set_wrs set_hdrs c_hdrs c_errs]. split; [|reflexivity]. rewrite nth_error_app2 by lia. now rewrite Nat.sub_diag.
Qed.
Print Assumptions C65_set_get_header.
(** LASWriter_WriteHeader is LASWriter_SetHeader and LASWriter_WriteOwnedHeader. *)
Theorem C65_write_header : forall sv dh xml doy year s n k x h t r, nth_error (w_wrs s) n = Some (Some x) -> nth_error (c_hdrs (w_c s)) k = Some (Some (Some h)) ->
  wstep sv dh xml doy year s (WHeader (At n) (At k)) = Ok (t, R r) ->
  exists u q, wrun sv dh xml doy year s [WSetHeader (At n) (At k); WOwned (At n)] = Ok (u, [R Nothing; R q]) /\ w_wrs u = w_wrs t /\ (q = Num 0 <-> r = Num 0) /\
    (forall g, w_files u g = w_files t g) /\ same_objects (w_c t) (w_c u).
Proof.
  intros sv dh xml doy year s n k x h t r X H E. cbn [wrun].
  assert (E1 : wstep sv dh xml doy year s (WSetHeader (At n) (At k)) = Ok (put_wr s n (with_hdr x h), R Nothing)).
  { unfold wstep. cbv zeta. unfold object. rewrite H, X. reflexivity. }
  rewrite E1. cbn [obind]. unfold wstep in *. cbv zeta in *. unfold whdr_valid, object in E. rewrite H, X in E. cbn [obind] in E. unfold object. cbn [put_wr set_wrs w_wrs]. rewrite (put_same _ _ _ _ X). cbn [obind].
  unfold again in *. assert (PP : forall y z : cwriter, put (put (w_wrs s) n y) n z = put (w_wrs s) n z).
  { unfold put. clear. revert n. induction (w_wrs s); intros [|n] y z; cbn; try reflexivity. now rewrite IHl. }
  destruct (writer_write_header sv (cw_w (with_hdr x h))) as [w|e|u]; [| |discriminate]; apply pair_ok in E as (<- & E);
    eexists _, _; (split; [reflexivity|]); cbn [put_wr set_wrs w_wrs w_files w_c wfail set_c]; rewrite ?PP; (split; [reflexivity|]); (split; [split; intros; congruence|]); (split; [reflexivity|]); repeat split.
Qed.
Print Assumptions C65_write_header.

(** *** what goes wrong *)

(** LASWriter_WritePoint does not check the writer. *)
Theorem C65_null_writer_refuted : forall sv dh xml doy year s p q h, point_at dh (w_c s) p = Ok (q, h) ->
  wstep sv dh xml doy year s (WPoint Null p) = UB UBNull.
Proof. intros sv dh xml doy year s p q h E. unfold wstep. cbv zeta. destruct p; [discriminate| |]; rewrite E; reflexivity. Qed.
Print Assumptions C65_null_writer_refuted.
(** Appending to a file that does not exist, or writing where one may not, is not
    reported: the null stream is used. *)
Theorem C65_unopened_refuted : forall sv dh xml doy year s f k h, nth_error (c_hdrs (w_c s)) k = Some (Some (Some h)) ->
  (w_files s f = Missing -> wstep sv dh xml doy year s (WCreate (Some f) (At k) 2) = UB UBNull) /\
  (w_files s f = Denied -> wstep sv dh xml doy year s (WCreate (Some f) (At k) 1) = UB UBNull).
Proof. intros sv dh xml doy year s f k h E. split; intros D; unfold wstep; cbv zeta; unfold whdr_valid, object; rewrite E; cbn [obind]; rewrite D; reflexivity. Qed.
Print Assumptions C65_unopened_refuted.
(** Refusing a header (compression is not compiled in) comes after the file has been
    emptied. *)
Theorem C65_refused_refuted : forall sv dh xml doy year s f k h d, nth_error (c_hdrs (w_c s)) k = Some (Some (Some h)) -> h_comp h = true -> w_files s f = Data d ->
  exists t, wstep sv dh xml doy year s (WCreate (Some f) (At k) 1) = Ok (t, WPtr Null) /\ w_files t f = Data [] /\
    c_errs (w_c t) = mkErr 3 "LASWriter_Create" :: c_errs (w_c s).
Proof.
  intros sv dh xml doy year s f k h d E C D. unfold wstep. cbv zeta. unfold whdr_valid, object. rewrite E. cbn [obind]. rewrite D.
  change ((2 <? 1) || (1 <? 1)) with false. change (1 =? 2) with false. cbv iota.
  assert (W : writer_new sv (os_open []) h = Throw EConfiguration).
  { unfold writer_new, writer_write_header, write_header, prepare_header. cbn [os_data os_open w_os w_hdr w_count List.length Nat.eqb negb]. cbv zeta.
    assert (K : forall l x, h_comp (fold_left add_vlr l x) = h_comp x) by (induction l; intros; cbn [fold_left]; [reflexivity|now rewrite IHl]).
    set (h1 := set_georeference (delete_vlrs h (str "liblas"%string) 2112)).
    assert (C1 : h_comp h1 = true). { unfold h1, set_georeference. cbv zeta. rewrite K. exact C. }
    clearbody h1. assert (C2 : h_comp (if is_custom (h_schema h1) then add_vlr (delete_vlrs h1 (str "liblas"%string) 7) (sv (h_schema h1)) else h1) = true).
    { destruct (is_custom (h_schema h1)); exact C1. }
    rewrite C2. reflexivity. }
  rewrite W. eexists. split; [reflexivity|]. cbn [set_c set_file w_files w_c]. rewrite Nat.eqb_refl. split; reflexivity.
Qed.
Print Assumptions C65_refused_refuted.
(** A point with a shorter record than the file's is not refused: the bytes after it
    in memory are read. *)
Theorem C65_short_point_refuted : forall sv dh xml doy year s n x p q h, nth_error (w_wrs s) n = Some (Some x) -> cw_first x = None ->
  point_at dh (w_c s) p = Ok (q, h) -> Z.of_nat (length (p_data q)) < get_record_length (w_hdr (cw_w x)) ->
  wstep sv dh xml doy year s (WPoint (At n) p) = UB UBOutOfBounds.
Proof.
  intros sv dh xml doy year s n x p q h X F E L. unfold wstep. cbv zeta. destruct p; [discriminate| |]; rewrite E; cbn [obind]; unfold object; rewrite X; cbn [obind]; rewrite F;
    unfold write_point; cbn [w_hdr]; (destruct (p_data q) as [|b l] eqn:D; [reflexivity|]); rewrite <- D in *; rewrite (proj2 (Nat.ltb_lt _ _)) by lia; reflexivity.
Qed.
Print Assumptions C65_short_point_refuted.
(** LASWriter_WriteOwnedHeader after the points, with no error anywhere, leaves a file
    that says it has none. *)
Theorem C65_owned_header_refuted : forall sv dh xml doy year s f k h hs ps, nth_error (c_hdrs (w_c s)) k = Some (Some (Some h)) -> w_files s f = Missing ->
  Forall2 (fun p q => exists r, point_at dh (w_c s) p = Ok (q, r)) hs ps -> fresh_ok sv h -> Forall (point_fits (get_record_length h)) ps -> h_npts h = 0 ->
  let n := length (w_wrs s) in
  exists t F, wrun sv dh xml doy year s (WCreate (Some f) (At k) 1 :: map (WPoint (At n)) hs ++ [WOwned (At n); WDestroy (At n)]) =
      Ok (t, WPtr (At n) :: map (fun _ => R (Num 0)) hs ++ [R (Num 0); R Nothing]) /\
    w_c t = w_c s /\ w_files t f = Data F /\ u_at F 107 4 = 0.
Proof.
  intros sv dh xml doy year s f k h hs ps EH M P HF HP HN n.
  destruct (again_ok sv h ps HF HP HN) as (w & w1 & w2 & F & W1 & W2 & W3 & _ & _ & _ & W4 & W5).
  set (s1 := set_file s f (Data [])).
  assert (E : wstep sv dh xml doy year s (WCreate (Some f) (At k) 1) = Ok (set_wrs s1 (w_wrs s ++ [Some (mkCW f w None)]), WPtr (At n))).
  { unfold wstep. cbv zeta. unfold whdr_valid, object. rewrite EH. cbn [obind]. rewrite M. change ((2 <? 1) || (1 <? 1)) with false. change (1 =? 2) with false. cbv iota. rewrite W1. reflexivity. }
  cbn [wrun]. rewrite E. cbn [obind].
  destruct (points_run sv dh xml doy year f n hs ps (set_wrs s1 (w_wrs s ++ [Some (mkCW f w None)])) (mkCW f w None) w1) as (t & y & R1 & R2 & R3 & R4 & R5 & R6 & R7 & R8).
  { cbn [set_wrs w_wrs]. rewrite nth_error_app2 by (unfold n; lia). unfold n. now rewrite Nat.sub_diag. } { reflexivity. } { now left. } { exact P. } { exact W2. }
  rewrite (wrun_app sv dh xml doy year (map (WPoint (At n)) hs) [WOwned (At n); WDestroy (At n)]), R1. cbn [obind wrun].
  assert (E2 : wstep sv dh xml doy year t (WOwned (At n)) = Ok (put_wr t n (mkCW f w2 (cw_first y)), R (Num 0))).
  { unfold wstep. cbv zeta. unfold object. rewrite R2. cbn [obind]. unfold again. rewrite R3, W3, R4. reflexivity. }
  rewrite E2. cbn [obind].
  assert (E3 : wstep sv dh xml doy year (put_wr t n (mkCW f w2 (cw_first y))) (WDestroy (At n)) = Ok (set_file (set_wrs (put_wr t n (mkCW f w2 (cw_first y))) (drop (put (w_wrs t) n (mkCW f w2 (cw_first y))) n)) f (Data F), R Nothing)).
  { unfold wstep. cbv zeta. cbn [put_wr set_wrs w_wrs]. rewrite (put_same _ _ _ _ R2). cbn [cw_w]. rewrite W4. reflexivity. }
  rewrite E3. cbn [obind]. eexists _, F. split; [reflexivity|]. cbn [set_file set_wrs put_wr w_c w_files]. rewrite Nat.eqb_refl. split; [exact R5|]. split; [reflexivity|exact W5].
Qed.
Print Assumptions C65_owned_header_refuted.

(** After the first point the length of the records is fixed, whatever header is
    written later: the file then declares another length than it has. *)
Theorem C65_record_length_refuted : forall sv dh xml doy year s n k x h0 h p q hr, nth_error (w_wrs s) n = Some (Some x) -> cw_first x = Some h0 ->
  nth_error (c_hdrs (w_c s)) k = Some (Some (Some h)) -> os_fail (w_os (cw_w x)) = false -> os_data (w_os (cw_w x)) <> [] -> 0 <= h_doff h ->
  point_at dh (w_c s) p = Ok (q, hr) -> point_fits (get_record_length h0) q -> 0 <= get_record_length h0 ->
  exists s1 s2 y z, wrun sv dh xml doy year s [WHeader (At n) (At k)] = Ok (s1, [R (Num 0)]) /\ wrun sv dh xml doy year s1 [WPoint (At n) p] = Ok (s2, [R (Num 0)]) /\
    nth_error (w_wrs s1) n = Some (Some y) /\ nth_error (w_wrs s2) n = Some (Some z) /\ w_hdr (cw_w z) = h /\
    os_pos (w_os (cw_w z)) = os_pos (w_os (cw_w y)) + get_record_length h0.
Proof.
  intros sv dh xml doy year s n k x h0 h p q hr X X1 H OF OD HD PA (P1 & P2) R0.
  assert (WA : forall cs o, os_fail o = false -> exists o', os_write_all o cs = Ok o' /\ os_fail o' = false).
  { induction cs as [|c cs IH]; intros o O; cbn [os_write_all]; [eauto|]. unfold os_write at 1. rewrite O. cbn [obind]. apply IH. reflexivity. }
  assert (W : exists w, writer_write_header sv (cw_w (with_hdr x h)) = Ok w /\ w_hdr w = h /\ os_fail (w_os w) = false).
  { unfold writer_write_header, write_header. cbn [with_hdr cw_w w_os w_hdr w_count]. destruct (os_data (w_os (cw_w x))) as [|b l] eqn:EB; [congruence|]. cbn [List.length Nat.eqb negb obind].
    assert (SF : os_fail (os_seek (w_os (cw_w x)) 0) = false) by (unfold os_seek; rewrite OF; reflexivity).
    destruct (WA (header_chunks h) _ SF) as (o & -> & O). cbn [obind]. destruct (negb (h_npts h =? 0)).
    - eexists. split; [reflexivity|]. split; [reflexivity|]. cbn [w_os]. unfold os_seek_end, os_seek. rewrite O. destruct (Z.ltb_spec (Z.of_nat (length (os_data o)) + 0) 0); [lia|reflexivity].
    - eexists. split; [reflexivity|]. split; [reflexivity|]. cbn [w_os]. unfold os_seek. rewrite O. destruct (Z.ltb_spec (h_doff h) 0); [lia|reflexivity]. }
  destruct W as (w & W & WH & WF).
  set (y := mkCW (cw_file x) w (cw_first x)).
  assert (E1 : wstep sv dh xml doy year s (WHeader (At n) (At k)) = Ok (put_wr s n y, R (Num 0))).
  { unfold wstep. cbv zeta. unfold whdr_valid, object. rewrite H. cbn [obind]. rewrite X. cbn [obind]. unfold again. rewrite W. reflexivity. }
  set (o2 := mkOs (file_write (os_data (w_os w)) (Z.to_nat (os_pos (w_os w))) (firstn (Z.to_nat (get_record_length h0)) (p_data q))) (os_pos (w_os w) + Z.of_nat (length (firstn (Z.to_nat (get_record_length h0)) (p_data q)))) false).
  set (z := mkCW (cw_file x) (mkWriter o2 h ((w_count w + 1) mod 2 ^ 32)) (Some h0)).
  assert (Y : nth_error (w_wrs (put_wr s n y)) n = Some (Some y)) by (cbn [put_wr set_wrs w_wrs]; now apply (put_same _ _ _ (Some x))).
  assert (E2 : wstep sv dh xml doy year (put_wr s n y) (WPoint (At n) p) = Ok (put_wr (put_wr s n y) n z, R (Num 0))).
  { unfold wstep. cbv zeta. change (w_c (put_wr s n y)) with (w_c s).
    assert (WP : write_point (mkWriter (w_os w) h0 (w_count w)) q = Ok (mkWriter o2 h0 ((w_count w + 1) mod 2 ^ 32))).
    { unfold write_point. cbn [w_hdr w_os w_count]. destruct (p_data q) as [|b l] eqn:D; [congruence|]. rewrite <- D in *. rewrite (proj2 (Nat.ltb_ge _ _)) by lia. unfold os_write. rewrite WF. cbn [obind]. unfold o2. rewrite !D. reflexivity. }
    destruct p; [discriminate| |]; rewrite PA; cbn [obind]; unfold object; rewrite Y; cbn [obind y cw_first cw_w cw_file]; rewrite X1, WP, WH; reflexivity. }
  exists (put_wr s n y), (put_wr (put_wr s n y) n z), y, z. cbn [wrun]. rewrite E1, E2. cbn [obind]. split; [reflexivity|]. split; [reflexivity|]. split; [exact Y|].
  split; [cbn [put_wr set_wrs w_wrs] in *; now apply (put_same _ _ _ (Some y))|]. split; [reflexivity|]. cbn [z y cw_w w_os o2 os_pos]. rewrite firstn_length. lia.
Qed.
Print Assumptions C65_record_length_refuted.

(** ** C66 *)

(** What is written through the C API is read back through it: the points of the
    file are, in order, the records of the points written, then there are no more;
    no call reports an error. *)
Theorem C66_round_trip : forall sv dh xml doy year s f k h hs ps room,
  nth_error (c_hdrs (w_c s)) k = Some (Some (Some h)) -> w_files s f <> Denied -> not_open s f ->
  Forall2 (live_pt dh (w_c s)) hs ps -> session_ok sv h ps ->
  Forall (fun x => f64_fin x = true) [x_of (h_scale h); y_of (h_scale h); z_of (h_scale h); x_of (h_offset h); y_of (h_offset h); z_of (h_offset h)] ->
  format_bytes (get_format h) <= get_record_length h <= Z.of_nat room ->
  let n := length (w_wrs s) in let m := length (c_rdrs (w_c s)) in
  exists t, wrun sv dh xml doy year s
      ((WCreate (Some f) (At k) 1 :: map (WPoint (At n)) hs ++ [WDestroy (At n)]) ++
       OpenFile (Some f) :: map Plain (flat_map (fun _ => [RdNext (At m); PtGetData (PRd m) room]) ps ++ [RdNext (At m)])) =
    Ok (t, (WPtr (At n) :: map (fun _ => R (Num 0)) hs ++ [R Nothing]) ++
       R (RPtr (At m)) :: map R (flat_map (fun q => [PPtr (PRd m); Bytes (firstn (Z.to_nat (get_record_length h)) (p_data q))]) ps ++ [PPtr PNull])) /\
    c_errs (w_c t) = c_errs (w_c s).
Proof.
  intros sv dh xml doy year s f k h hs ps room EH D O P HS FIN (L1 & L2) n m.
  destruct (session_parts sv h ps HS) as (HF & HL & HNS & Hn & HP & HB). pose proof HL as (S1 & S2 & S3 & S4 & S5).
  set (F := file_image sv h ps). assert (W : write_file sv h ps = Ok F) by now apply write_file_image.
  assert (K : kept_bytes s f 1 = []) by (unfold kept_bytes; now destruct (w_files s f)).
  destruct (C65_completes sv dh xml doy year s f k h 1 hs ps F EH (or_introl eq_refl) D ltac:(discriminate) O P ltac:(rewrite K; exact W)) as (t & RUN & RC & RF & _ & _). cbv zeta in RUN. fold n in RUN.
  rewrite (wrun_app sv dh xml doy year), RUN. cbn [obind wrun].
  destruct (written_fields sv h ps HF ltac:(lia) Hn) as (_&_&_&_&_&_&E104&E105&E107&_). fold F in E104, E105, E107.
  assert (RD : readable xml F).
  { split; [now apply written_las_file|]. split; [apply written_standard; try assumption; now apply plain_written_standard|]. split; [now apply written_finite|]. split; [apply written_complete; assumption || lia|].
    unfold f_reclen. rewrite E104, E105. exact L1. }
  destruct (c_all_points dh xml doy year F (w_c t) room RD ltac:(unfold f_reclen; rewrite E105; exact L2)) as (c & C & CE). rewrite RC in C, CE. cbv zeta in C. fold m in C.
  cbn [crun] in C. apply obind_ok in C as ((c1, r1) & C1 & C). apply obind_ok in C as ((c2, r2) & C2 & C). apply pair_ok in C as (<- & C).
  assert (r1 = RPtr (At m)) by congruence. assert (C3 : r2 = flat_map (fun rec => [PPtr (PRd m); Bytes rec]) (records_from F 0) ++ [PPtr PNull]) by congruence. clear C. subst r1 r2.
  assert (EO : wstep sv dh xml doy year t (OpenFile (Some f)) = Ok (set_c t c1, R (RPtr (At m)))).
  { unfold wstep. cbv zeta. rewrite RF, RC, C1. reflexivity. }
  rewrite EO. cbn [obind].
  assert (N : Z.to_nat (f_npts F) = length ps) by (unfold f_npts; rewrite E107; lia). rewrite N in C2.
  assert (SAME : flat_map (fun _ : point => [RdNext (At m); PtGetData (PRd m) room]) ps = flat_map (fun _ : nat => [RdNext (At m); PtGetData (PRd m) room]) (seq 0 (length ps))).
  { clear. generalize 0%nat. induction ps; intros j; cbn [flat_map List.length seq]; [reflexivity|]. now rewrite (IHps (S j)). }
  rewrite SAME. rewrite (plain_run sv dh xml doy year _ (set_c t c1) c2 _ C2). cbn [obind].
  assert (REC : records_from F 0 = map (fun q => firstn (Z.to_nat (get_record_length h)) (p_data q)) ps).
  { unfold records_from. rewrite Z.sub_0_r, N. rewrite <- (map_id ps) at 2. rewrite map_map.
    assert (X : forall j, (forall i q, nth_error ps i = Some q -> file_record F (Z.of_nat (j + i)) = record_of (get_record_length h) q) ->
       map (fun i => file_record F (0 + Z.of_nat i)) (seq j (length ps)) = map (fun q => firstn (Z.to_nat (get_record_length h)) (p_data q)) ps).
    { clearbody F. clear. induction ps as [|q ps IH]; intros j H; [reflexivity|]. cbn [List.length seq map]. f_equal.
      - specialize (H 0%nat q eq_refl). rewrite Nat.add_0_r in H. exact H.
      - apply IH. intros i q' Q. specialize (H (S i) q' Q). now rewrite Nat.add_succ_r in H. }
    apply X. intros i q Q. apply written_record; assumption || lia. }
  rewrite REC. exists (set_c (set_c t c1) c2). split; [|exact CE]. f_equal. f_equal. cbn [app]. f_equal. f_equal. f_equal. f_equal. f_equal.
  clear. induction ps; cbn [flat_map map]; [reflexivity|]. now rewrite IHps.
Qed.
Print Assumptions C66_round_trip.

(** ** the hypotheses are met

    A program with one header and two points, none of them in a file yet. *)
Definition with_points (h : header) : wst :=
  mkW (mkCst [] [Some (Some h)] [Some (mkCP (repeat 17 34) (HObj 0)); Some (mkCP (repeat 18 34) (HObj 0))] [] []) (fun _ => Missing) [].
Definition two_points : wst := with_points (sample_header 2).
Example two_points_live dh : Forall2 (live_pt dh (w_c two_points)) [POwn 0; POwn 1] (sample_points (sample_header 2)).
Proof. repeat apply Forall2_cons; try apply Forall2_nil; (eexists; split; [reflexivity|]; split; [reflexivity|]; reflexivity). Qed.
Example C66_instance : forall dh xml, exists t, wrun no_sv dh xml 1 2012 two_points
  [WCreate (Some 5%nat) (At 0) 1; WPoint (At 0) (POwn 0); WPoint (At 0) (POwn 1); WDestroy (At 0);
   OpenFile (Some 5%nat); Plain (RdNext (At 0)); Plain (PtGetData (PRd 0) 50); Plain (RdNext (At 0)); Plain (PtGetData (PRd 0) 50); Plain (RdNext (At 0))] =
  Ok (t, [WPtr (At 0); R (Num 0); R (Num 0); R Nothing; R (RPtr (At 0)); R (PPtr (PRd 0)); R (Bytes (repeat 17 34)); R (PPtr (PRd 0)); R (Bytes (repeat 18 34)); R (PPtr PNull)]) /\
  c_errs (w_c t) = [].
Proof.
  intros dh xml. destruct (C66_round_trip no_sv dh xml 1 2012 two_points 5 0 (sample_header 2) [POwn 0; POwn 1] (sample_points (sample_header 2)) 50) as (t & E & EE).
  - reflexivity.
  - discriminate.
  - intros [|n] x X; discriminate.
  - apply two_points_live.
  - apply sample_session. now right.
  - repeat apply Forall_cons; try apply Forall_nil; vm_compute; reflexivity.
  - assert (get_record_length (sample_header 2) = 34 /\ get_format (sample_header 2) = 3) as (-> & ->) by (split; vm_compute; reflexivity). vm_compute. split; discriminate.
  - exists t. split; [|exact EE].
    assert (RL : get_record_length (sample_header 2) = 34) by (vm_compute; reflexivity). rewrite RL in E. exact E.
Qed.
(** the same session with other calls in between *)
Definition in_between : list wcall := [WPoint (At 0) (POwn 0); Plain (PtDestroy (POwn 0)); Plain (HdrDestroy Null); WDestroy Null].
Lemma between_ok : forall dh xml h, session_ok no_sv h [mkPoint (repeat 17 34) h] -> exists s1 s2 rs s3 r,
  not_open (with_points h) 5 /\ wstep no_sv dh xml 1 2012 (with_points h) (WCreate (Some 5%nat) (At 0) 1) = Ok (s1, WPtr (At 0)) /\
  wrun no_sv dh xml 1 2012 s1 in_between = Ok (s2, rs) /\ Forall (only_points 0 5) in_between /\
  wstep no_sv dh xml 1 2012 s2 (WDestroy (At 0)) = Ok (s3, r) /\ accepted no_sv dh xml 1 2012 0 s1 in_between = [mkPoint (repeat 17 34) h].
Proof.
  intros dh xml h HS.
  destruct (session_parts no_sv h _ HS) as (HF & _ & _ & Hn & HP & _). pose proof (write_file_image no_sv h _ HF HP Hn) as W. unfold write_file, write_session in W.
  apply obind_ok in W as (w & W1 & W). apply obind_ok in W as (w1 & W2 & W3). cbn [write_points] in W2. apply obind_ok in W2 as (w2 & W2 & W4). apply Ok_inj in W4. subst w2.
  pose proof (write_point_hdr _ _ _ W2) as WH.
  assert (MW : mkWriter (w_os w) (w_hdr w) (w_count w) = w) by (destruct w; reflexivity).
  assert (MW1 : mkWriter (w_os w1) (w_hdr w) (w_count w1) = w1) by (rewrite <- WH; destruct w1; reflexivity).
  generalize dependent (file_image no_sv h [mkPoint (repeat 17 34) h]). intros F W3.
  set (s0 := with_points h). set (s1 := set_wrs (set_file s0 5 (Data [])) [Some (mkCW 5 w None)]).
  assert (E1 : wstep no_sv dh xml 1 2012 s0 (WCreate (Some 5%nat) (At 0) 1) = Ok (s1, WPtr (At 0))).
  { unfold wstep. cbv zeta. unfold whdr_valid, object. cbn [s0 with_points w_c c_hdrs nth_error obind w_files]. change ((2 <? 1) || (1 <? 1)) with false. change (1 =? 2) with false. cbv iota. rewrite W1. reflexivity. }
  set (s2 := put_wr s1 0 (mkCW 5 w1 (Some (w_hdr w)))).
  assert (E2 : wstep no_sv dh xml 1 2012 s1 (WPoint (At 0) (POwn 0)) = Ok (s2, R (Num 0))).
  { unfold wstep. cbv zeta. cbn [s1 s0 with_points set_wrs set_file w_c point_at c_pts object nth_error obind cp_hdr header_of header_at c_hdrs cp_data w_wrs cw_first cw_w]. rewrite MW, W2, MW1. reflexivity. }
  set (s3 := set_c s2 (set_pts (w_c s2) (drop (c_pts (w_c s2)) 0))). set (s4 := set_c s3 (push (w_c s3) LE_Failure "LASHeader_Destroy")). set (s5 := set_c s4 (push (w_c s4) LE_Failure "LASWriter_Destroy")).
  assert (E3 : wstep no_sv dh xml 1 2012 s2 (Plain (PtDestroy (POwn 0))) = Ok (s3, R Nothing)) by reflexivity.
  assert (E4 : wstep no_sv dh xml 1 2012 s3 (Plain (HdrDestroy Null)) = Ok (s4, R Nothing)) by reflexivity.
  assert (E5 : wstep no_sv dh xml 1 2012 s4 (WDestroy Null) = Ok (s5, R Nothing)) by reflexivity.
  exists s1, s5. eexists. eexists. eexists. split; [intros [|n] x X; discriminate|]. split; [exact E1|]. unfold in_between.
  split; [cbn [wrun]; rewrite E2; cbn [obind]; rewrite E3; cbn [obind]; rewrite E4; cbn [obind]; rewrite E5; cbn [obind]; reflexivity|].
  split; [repeat apply Forall_cons; try apply Forall_nil; cbn [only_points]; try exact I; discriminate|].
  split; [unfold wstep; cbv zeta; cbn [s5 s4 s3 s2 s1 set_c put_wr set_wrs w_wrs put list_set nth_error cw_w]; rewrite W3; reflexivity|].
  cbn [accepted]. rewrite E2, E3, E4, E5. cbn [s1 s0 with_points set_wrs set_file w_c point_at c_pts object nth_error obind cp_hdr header_of header_at c_hdrs cp_data]. reflexivity.
Qed.
Example C65_instance : forall dh xml, exists s1 s2 rs s3 r,
  not_open two_points 5 /\ wstep no_sv dh xml 1 2012 two_points (WCreate (Some 5%nat) (At 0) 1) = Ok (s1, WPtr (At 0)) /\
  wrun no_sv dh xml 1 2012 s1 in_between = Ok (s2, rs) /\ Forall (only_points 0 5) in_between /\
  wstep no_sv dh xml 1 2012 s2 (WDestroy (At 0)) = Ok (s3, r) /\ accepted no_sv dh xml 1 2012 0 s1 in_between = [mkPoint (repeat 17 34) (sample_header 2)].
Proof. intros dh xml. apply between_ok. apply session_okb_ok. vm_compute. reflexivity. Qed.
(** a header that asks for compression, over an existing file *)
Example C65_refused_instance : exists h, h_comp h = true /\ exists t, wstep no_sv h (fun _ => Throw ERuntime) 1 2012
  (mkW (mkCst [] [Some (Some h)] [] [] []) (fun _ => Data [1; 2; 3]) []) (WCreate (Some 0%nat) (At 0) 1) = Ok (t, WPtr Null) /\ w_files t 0%nat = Data [].
Proof.
  exists (h_upd_comp (sample_header 2) true). split; [reflexivity|].
  destruct (C65_refused_refuted no_sv (h_upd_comp (sample_header 2) true) (fun _ => Throw ERuntime) 1 2012 (mkW (mkCst [] [Some (Some (h_upd_comp (sample_header 2) true))] [] [] []) (fun _ => Data [1; 2; 3]) []) 0 0 (h_upd_comp (sample_header 2) true) [1; 2; 3])
    as (t & A & B & _); [reflexivity|reflexivity|reflexivity|]. eauto.
Qed.
Example C65_owned_instance : forall dh xml, exists t F,
  wrun no_sv dh xml 1 2012 two_points [WCreate (Some 5%nat) (At 0) 1; WPoint (At 0) (POwn 0); WPoint (At 0) (POwn 1); WOwned (At 0); WDestroy (At 0)] =
    Ok (t, [WPtr (At 0); R (Num 0); R (Num 0); R (Num 0); R Nothing]) /\ w_files t 5%nat = Data F /\ u_at F 107 4 = 0.
Proof.
  intros dh xml. destruct (session_parts no_sv _ _ (sample_session 2 (or_intror eq_refl))) as (HF & _ & _ & _ & HP & _).
  destruct (C65_owned_header_refuted no_sv dh xml 1 2012 two_points 5 0 (sample_header 2) [POwn 0; POwn 1] (sample_points (sample_header 2))) as (t & F & E & _ & E2 & E3); try reflexivity; try assumption.
  - repeat apply Forall2_cons; try apply Forall2_nil; eexists; reflexivity.
  - exists t, F. auto.
Qed.
(** a point of 34 bytes, then a header that says 20, then another point *)
Definition two_headers (h h2 : header) : wst :=
  mkW (mkCst [] [Some (Some h); Some (Some h2)] [Some (mkCP (repeat 17 34) (HObj 0)); Some (mkCP (repeat 18 34) (HObj 0))] [] []) (fun _ => Missing) [].
Lemma record_length_ok : forall dh xml h h2, session_ok no_sv h [mkPoint (repeat 17 34) h] -> get_record_length h = 34 -> 0 <= h_doff h2 ->
  exists s1 s2 s3 z, wrun no_sv dh xml 1 2012 (two_headers h h2) [WCreate (Some 5%nat) (At 0) 1; WPoint (At 0) (POwn 0)] = Ok (s1, [WPtr (At 0); R (Num 0)]) /\
    wrun no_sv dh xml 1 2012 s1 [WHeader (At 0) (At 1)] = Ok (s2, [R (Num 0)]) /\ wrun no_sv dh xml 1 2012 s2 [WPoint (At 0) (POwn 1)] = Ok (s3, [R (Num 0)]) /\
    nth_error (w_wrs s3) 0 = Some (Some z) /\ w_hdr (cw_w z) = h2 /\ exists y, nth_error (w_wrs s2) 0 = Some (Some y) /\ os_pos (w_os (cw_w z)) = os_pos (w_os (cw_w y)) + 34.
Proof.
  intros dh xml h h2 HS RL HD.
  destruct (session_parts no_sv h _ HS) as (HF & _ & _ & Hn & HP & _). pose proof (write_file_image no_sv h _ HF HP Hn) as W. unfold write_file, write_session in W.
  apply obind_ok in W as (w & W1 & W). apply obind_ok in W as (w1 & W2 & _). cbn [write_points] in W2. apply obind_ok in W2 as (w2 & W2 & W4). apply Ok_inj in W4. subst w2.
  pose proof (write_point_hdr _ _ _ W2) as WH.
  assert (MW : mkWriter (w_os w) (w_hdr w) (w_count w) = w) by (destruct w; reflexivity).
  assert (MW1 : mkWriter (w_os w1) (w_hdr w) (w_count w1) = w1) by (rewrite <- WH; destruct w1; reflexivity).
  assert (RW : get_record_length (w_hdr w) = 34).
  { rewrite (Writer_File.writer_new_fresh no_sv h HF) in W1. apply Ok_inj in W1. rewrite <- W1. cbn [w_hdr]. exact RL. }
  set (s0 := two_headers h h2). set (s1 := set_wrs (set_file s0 5 (Data [])) [Some (mkCW 5 w None)]).
  assert (E1 : wstep no_sv dh xml 1 2012 s0 (WCreate (Some 5%nat) (At 0) 1) = Ok (s1, WPtr (At 0))).
  { unfold wstep. cbv zeta. unfold whdr_valid, object. cbn [s0 two_headers w_c c_hdrs nth_error obind w_files]. change ((2 <? 1) || (1 <? 1)) with false. change (1 =? 2) with false. cbv iota. rewrite W1. reflexivity. }
  set (s2 := put_wr s1 0 (mkCW 5 w1 (Some (w_hdr w)))).
  assert (E2 : wstep no_sv dh xml 1 2012 s1 (WPoint (At 0) (POwn 0)) = Ok (s2, R (Num 0))).
  { unfold wstep. cbv zeta. cbn [s1 s0 two_headers set_wrs set_file w_c point_at c_pts object nth_error obind cp_hdr header_of header_at c_hdrs cp_data w_wrs cw_first cw_w]. rewrite MW, W2, MW1. reflexivity. }
  assert (OS : os_fail (w_os w1) = false /\ os_data (w_os w1) <> []).
  { unfold write_point in W2. rewrite RW in W2. cbn [p_data] in W2. change (repeat 17 34) with (17 :: repeat 17 33) in W2 at 1. cbv iota in W2. rewrite repeat_length in W2.
    change (34 <? Z.to_nat 34)%nat with false in W2. cbv iota in W2. apply obind_ok in W2 as (o & O & W2). apply Ok_inj in W2. rewrite <- W2. cbn [w_os].
    unfold os_write in O. destruct (os_fail (w_os w)); [discriminate|]. apply Ok_inj in O. rewrite <- O. cbn [os_fail os_data]. split; [reflexivity|]. intros N. apply (f_equal (@length Z)) in N.
    change (Z.to_nat 34) with 34%nat in N. rewrite (firstn_all2 (n := 34)) in N by (rewrite repeat_length; lia). change (repeat 17 34) with (17 :: repeat 17 33) in N. unfold file_write in N. rewrite !app_length in N. cbn [List.length] in N. lia. }
  destruct OS as (OF & OD).
  destruct (C65_record_length_refuted no_sv dh xml 1 2012 s2 0 1 (mkCW 5 w1 (Some (w_hdr w))) (w_hdr w) h2 (POwn 1) (mkPoint (repeat 18 34) h) (HObj 0)) as (s3 & s4 & y & z & A & B & C & D & G & K);
    try reflexivity; try assumption.
  - rewrite RW. split; discriminate.
  - rewrite RW. discriminate.
  - rewrite RW in K. exists s2, s3, s4, z. split; [cbn [wrun]; rewrite E1; cbn [obind]; rewrite E2; reflexivity|]. split; [exact A|]. split; [exact B|]. split; [exact D|]. split; [exact G|]. exists y. auto.
Qed.
Definition format0 : header := h_upd_schema (sample_header 2) (fst (set_format (h_schema (sample_header 2)) 0)).
Example format0_length : get_record_length format0 = 20.
Proof. vm_compute. reflexivity. Qed.
Example C65_record_length_instance : forall dh xml, exists s1 s2 s3 z,
  wrun no_sv dh xml 1 2012 (two_headers (sample_header 2) format0) [WCreate (Some 5%nat) (At 0) 1; WPoint (At 0) (POwn 0)] = Ok (s1, [WPtr (At 0); R (Num 0)]) /\
  wrun no_sv dh xml 1 2012 s1 [WHeader (At 0) (At 1)] = Ok (s2, [R (Num 0)]) /\ wrun no_sv dh xml 1 2012 s2 [WPoint (At 0) (POwn 1)] = Ok (s3, [R (Num 0)]) /\
  nth_error (w_wrs s3) 0 = Some (Some z) /\ w_hdr (cw_w z) = format0 /\
  exists y, nth_error (w_wrs s2) 0 = Some (Some y) /\ os_pos (w_os (cw_w z)) = os_pos (w_os (cw_w y)) + 34.
Proof. intros dh xml. apply record_length_ok; [apply session_okb_ok; vm_compute; reflexivity|vm_compute; reflexivity|vm_compute; discriminate]. Qed.

(** C15, C16, C18-C23, C47: files written by the library and read back.

    Vocabulary.  [write_file sv h ps] (Writer_Api.v): open a writer with header
    [h] on an empty stream, write [ps], close; [write_session sv F h ps]: the same
    on the existing file [F].  [reader_open] (Reader_Model.v): the reader's
    constructor.  IO_Spec.v: [pub_of_file] (the public header block as a table of
    byte ranges), [pub_of_header] (what the accessors return), [expected_pub],
    [vlr_image], [written_vlrs], [fresh_ok], [las_header].  [session_ok]
    (IO_Round.v): a header a new file can be written from, of a supported version
    and format, without schema VLR, and points with enough data.
    [sv], [xml]: the XML schema encoder and decoder (arbitrary). *)
From Coq Require Import ZArith List Bool Lia String.
Import ListNotations.
From Verif Require Import Outcome Bytes Float64 Float64_Proofs CStr Vlr_Model Schema_Model Header_Model Point_Model Stream_Model Stream_Proofs
  Writer_Model IO_Spec Writer_Api Reader_Model Reader_Spec Reader_Api Reader_Hist Reader_Vlrs Writer_Proofs Writer_File Writer_RT Writer_Append
  IO_Round IO_Extra IO_Samples.
Local Open Scope Z_scope.
Local Notation length := List.length (only parsing).

(** C15: every field of the header block comes back (version 1.1 and later). *)
Theorem C15_header_roundtrip : forall sv xml doy year h ps, session_ok sv h ps -> h_vmin h <> 0 ->
  exists F r, write_file sv h ps = Ok F /\ reader_open xml doy year F = Ok r /\
    pub_of_file F = expected_pub sv h (Z.of_nat (length ps)) (h_srcid h) (h_reserved h) /\
    pub_of_header (r_hdr r) = expected_pub sv h (Z.of_nat (length ps)) (h_srcid h) (h_reserved h).
Proof.
  intros sv xml doy year h ps HS Hv. destruct (reopen sv xml doy year h ps HS) as (E & LF & _ & _ & r & ER & Hi & _ & EP & _).
  exists (file_image sv h ps), r. split; [exact E|]. split; [exact ER|].
  unfold stored_src, stored_res in EP. destruct (Z.eqb_spec (h_vmin h) 0); [contradiction|]. split; [|exact EP].
  rewrite <- EP. destruct Hi as ((P & _) & _). now rewrite P.
Qed.
Print Assumptions C15_header_roundtrip.

(** Version 1.0: the source id is lost: the reserved word is written over both. *)
Theorem C15_version_1_0 : forall sv xml doy year h ps, session_ok sv h ps -> h_vmin h = 0 ->
  exists F r, write_file sv h ps = Ok F /\ reader_open xml doy year F = Ok r /\
    pub_of_header (r_hdr r) = expected_pub sv h (Z.of_nat (length ps)) (h_reserved h) 0.
Proof.
  intros sv xml doy year h ps HS Hv. destruct (reopen sv xml doy year h ps HS) as (E & LF & _ & _ & r & ER & Hi & _ & EP & _).
  exists (file_image sv h ps), r. split; [exact E|]. split; [exact ER|].
  unfold stored_src, stored_res in EP. rewrite Hv in EP. exact EP.
Qed.
Print Assumptions C15_version_1_0.

Theorem C15_source_id_refuted : exists h ps, forall xml, session_ok no_sv h ps /\ h_srcid h = 77 /\ h_reserved h = 88 /\
  exists F r, write_file no_sv h ps = Ok F /\ reader_open xml 1 2012 F = Ok r /\ h_srcid (r_hdr r) = 88 /\ h_reserved (r_hdr r) = 0.
Proof.
  exists (sample_header 0), (sample_points (sample_header 0)). intros xml. pose proof (sample_session 0 (or_introl eq_refl)) as HS.
  split; [exact HS|]. split; [vm_compute; reflexivity|]. split; [vm_compute; reflexivity|].
  destruct (C15_version_1_0 no_sv xml 1 2012 _ _ HS) as (F & r & E1 & E2 & E3); [vm_compute; reflexivity|].
  exists F, r. split; [exact E1|]. split; [exact E2|].
  pose proof (f_equal ph_source E3) as X. pose proof (f_equal ph_reserved E3) as Y. cbn [ph_source ph_reserved pub_of_header expected_pub] in X, Y.
  rewrite X, Y. split; vm_compute; reflexivity.
Qed.
Print Assumptions C15_source_id_refuted.

(** C16: the project id comes back with its first three fields byte-swapped; it
    is stable only after two round trips. *)
Theorem C16_guid_exact : forall sv xml doy year h ps, session_ok sv h ps ->
  exists F r, write_file sv h ps = Ok F /\ reader_open xml doy year F = Ok r /\
    h_guid (r_hdr r) = guid_swap (h_guid h) /\ guid_swap (h_guid (r_hdr r)) = h_guid h.
Proof.
  intros sv xml doy year h ps HS. destruct (reopen sv xml doy year h ps HS) as (E & _ & _ & _ & r & ER & _ & _ & _ & EG & _).
  exists (file_image sv h ps), r. split; [exact E|]. split; [exact ER|]. split; [exact EG|]. rewrite EG. apply guid_swap_swap.
  destruct HS as ((HW & _) & _). apply HW.
Qed.
Print Assumptions C16_guid_exact.

Theorem C16_guid_roundtrip_refuted : exists h ps, forall xml, session_ok no_sv h ps /\
  exists F r, write_file no_sv h ps = Ok F /\ reader_open xml 1 2012 F = Ok r /\ h_guid (r_hdr r) <> h_guid h.
Proof.
  exists (sample_header 2), (sample_points (sample_header 2)). intros xml. pose proof (sample_session 2 (or_intror eq_refl)) as HS.
  split; [exact HS|]. destruct (C16_guid_exact no_sv xml 1 2012 _ _ HS) as (F & r & E1 & E2 & E3 & _).
  exists F, r. split; [exact E1|]. split; [exact E2|]. rewrite E3. vm_compute. discriminate.
Qed.
Print Assumptions C16_guid_roundtrip_refuted.

(** C18: the VLRs written come back in order, with every field; they occupy the
    bytes from the header size to the header size plus the reported block size. *)
Theorem C18_vlr_roundtrip : forall sv xml doy year h ps, session_ok sv h ps ->
  exists F r, write_file sv h ps = Ok F /\ reader_open xml doy year F = Ok r /\
    map vlr_view (h_vlrs (r_hdr r)) = map vlr_view (written_vlrs sv h) /\
    h_nvlr (r_hdr r) = Z.of_nat (length (h_vlrs (r_hdr r))) /\
    vlr_block_size (r_hdr r) = Ok (vlrs_size (written_vlrs sv h)) /\
    Z.of_nat (file_vlrs_end F) = h_hsize h + vlrs_size (written_vlrs sv h).
Proof.
  intros sv xml doy year h ps HS. destruct (reopen sv xml doy year h ps HS) as (E & LF & _ & _ & r & ER & Hi & _ & EP & _ & EV & EB & _).
  destruct (session_parts sv h ps HS) as (HF & HL & _ & Hn & _).
  exists (file_image sv h ps), r. split; [exact E|]. split; [exact ER|].
  pose proof HF as (_ & _ & _ & _ & HWF & H227 & _).
  split.
  { rewrite EV, map_map. apply map_ext_in. intros v Hv. rewrite Forall_forall in HWF. destruct (HWF v Hv) as (W & SZ). now apply vlr_norm_view. }
  split; [pose proof (f_equal ph_nvlr EP) as X; cbn [ph_nvlr pub_of_header expected_pub] in X; rewrite X, EV, map_length; reflexivity|].
  split; [exact EB|].
  destruct (written_vlrs_read sv h ps HF ltac:(destruct HL; lia) Hn) as (_ & X & _). rewrite X. pose proof (vlrs_size_nonneg (written_vlrs sv h)). lia.
Qed.
Print Assumptions C18_vlr_roundtrip.

Example C18_instance : session_ok no_sv (sample_header 2) (sample_points (sample_header 2)) /\ h_vmin (sample_header 2) <> 0 /\
  length (written_vlrs no_sv (sample_header 2)) = 2%nat /\ vlrs_size (written_vlrs no_sv (sample_header 2)) = 111.
Proof. split; [apply sample_session; now right|]. vm_compute. repeat split; discriminate. Qed.

(** C19: whatever the header asks for, the data offset of a new file is at or
    after the end of the VLRs, and at most four bytes further. *)
Theorem C19_data_offset : forall sv h w, writer_new sv (os_open []) h = Ok w ->
  let h' := w_hdr w in
  0 <= h_hsize h' -> h_hsize h' + vlrs_size (h_vlrs h') + 4 < 2 ^ 31 ->
  h_hsize h' + vlrs_size (h_vlrs h') <= h_doff h' <= h_hsize h' + vlrs_size (h_vlrs h') + 4.
Proof. exact new_file_doff. Qed.
Print Assumptions C19_data_offset.

(** But a header size below 227 puts records on top of the header block: here the
    point count field is written into the middle of the only record. *)
Theorem C19_header_overlap_refuted : exists h p F, point_fits (get_record_length h) p /\ header_wf h /\ h_hsize h = 100 /\
  write_file no_sv h [p] = Ok F /\ f_doff F = 100 /\ file_record F 0 <> record_of (get_record_length h) p.
Proof.
  exists (h_upd_vlrs (h_upd_hsize (h_upd_doff (sample_header 2) 100) 100) 0 []), (sample_point (sample_header 2) 17).
  match goal with |- exists F, _ /\ _ /\ _ /\ ?o = Ok F /\ _ => let v := eval vm_compute in o in match v with Ok ?F => exists F end end.
  split; [split; [vm_compute; discriminate|discriminate]|]. split; [apply header_wfb_ok; vm_compute; reflexivity|].
  split; [vm_compute; reflexivity|]. split; [vm_compute; reflexivity|]. split; [vm_compute; reflexivity|]. vm_compute. discriminate.
Qed.
Print Assumptions C19_header_overlap_refuted.

Example C19_instance : exists w, writer_new no_sv (os_open []) (sample_header 2) = Ok w /\ h_hsize (w_hdr w) = 227 /\
  vlrs_size (h_vlrs (w_hdr w)) = 111 /\ h_doff (w_hdr w) = 338.
Proof.
  exists (get_ok no_writer (writer_new no_sv (os_open []) (sample_header 2))).
  split; [apply get_ok_ok; vm_compute; reflexivity|]. repeat split; vm_compute; reflexivity.
Qed.

(** C20: updating the count rewrites exactly the bytes 107-110. *)
Theorem C20_count_field : forall w c, os_fail (w_os w) = false -> (111 <= length (os_data (w_os w)))%nat ->
  let v := if c =? 0 then w_count w else c in
  exists w', update_point_count w c = Ok w' /\
    os_data (w_os w') = firstn 107 (os_data (w_os w)) ++ le_enc 4 v ++ skipn 111 (os_data (w_os w)) /\
    os_pos (w_os w') = 111 /\ w_count w' = w_count w /\ w_hdr w' = set_point_count (w_hdr w) v.
Proof. exact update_count_ok. Qed.
Print Assumptions C20_count_field.

(** At closing time the count written is the number of points of the session. *)
Theorem C20_closed_file : forall sv h ps, session_ok sv h ps ->
  exists F, write_file sv h ps = Ok F /\ u_at F 107 4 = Z.of_nat (length ps).
Proof.
  intros sv h ps HS. destruct (session_parts sv h ps HS) as (HF & HL & _ & Hn & HP & _).
  exists (file_image sv h ps). split; [now apply write_file_image|].
  now destruct (written_fields sv h ps HF ltac:(destruct HL; lia) Hn) as (_&_&_&_&_&_&_&_&X&_).
Qed.
Print Assumptions C20_closed_file.

(** The stream is left right after the field, so a point written next lands in
    the header block instead of after the previous record. *)
Theorem C20_next_point_refuted : exists h p w w1 w2 w3,
  writer_new no_sv (os_open []) h = Ok w /\ write_point w p = Ok w1 /\ update_point_count w1 0 = Ok w2 /\ write_point w2 p = Ok w3 /\
  os_pos (w_os w1) = 372 /\ slice (os_data (w_os w3)) 111 34 = record_of 34 p /\ length (os_data (w_os w3)) = 372%nat.
Proof.
  exists (sample_header 2), (sample_point (sample_header 2) 17).
  set (w := get_ok no_writer (writer_new no_sv (os_open []) (sample_header 2))).
  set (w1 := get_ok no_writer (write_point w (sample_point (sample_header 2) 17))).
  set (w2 := get_ok no_writer (update_point_count w1 0)).
  set (w3 := get_ok no_writer (write_point w2 (sample_point (sample_header 2) 17))).
  exists w, w1, w2, w3.
  do 4 (split; [apply get_ok_ok; vm_compute; reflexivity|]). repeat split; vm_compute; reflexivity.
Qed.
Print Assumptions C20_next_point_refuted.

(** C21: layout of a new file: a 227-byte header block that says what was asked
    for, the VLRs from the header size on, the version 1.0 signature bytes, and
    then exactly the records, in order. *)
Theorem C21_layout : forall sv h ps, session_ok sv h ps ->
  exists F H, write_file sv h ps = Ok F /\ length H = 227%nat /\
    F = then_at H (Z.to_nat (h_hsize h))
          (vlrs_image (written_vlrs sv h) ++ pad_sig (h_vmin h) ++ records (get_record_length h) ps) /\
    u_at F 107 4 = Z.of_nat (length ps) /\ u_at F 96 4 = data_start sv h /\
    forall k p, nth_error ps k = Some p ->
      slice F (Z.to_nat (data_start sv h + Z.of_nat k * get_record_length h)) (Z.to_nat (get_record_length h)) =
      firstn (Z.to_nat (get_record_length h)) (p_data p).
Proof.
  intros sv h ps HS. destruct (session_parts sv h ps HS) as (HF & HL & _ & Hn & HP & _). destruct HL as (_ & _ & _ & L4 & L5).
  exists (file_image sv h ps), (hdr_bytes (file_header sv h (Z.of_nat (length ps)))).
  split; [now apply write_file_image|]. split; [apply hdr_bytes_len; now apply file_header_wf|].
  destruct (written_fields sv h ps HF ltac:(lia) Hn) as (_&_&_&_&X96&_&_&X105&X107&_).
  split; [unfold file_image, fresh_tail; now rewrite <- app_assoc|]. split; [exact X107|]. split; [exact X96|].
  intros k p Hk. pose proof (written_record sv h ps k p HF ltac:(lia) Hn HP L5 Hk) as X. unfold file_record, f_doff, f_reclen in X.
  rewrite X96, X105 in X. exact X.
Qed.
Print Assumptions C21_layout.

(** C22: reading the file gives the points that were written, in order, and then
    end of data, however often one asks. *)
Theorem C22_write_then_read : forall sv xml doy year h ps m, session_ok sv h ps ->
  Forall (fun x => f64_fin x = true) [x_of (h_scale h); y_of (h_scale h); z_of (h_scale h); x_of (h_offset h); y_of (h_offset h); z_of (h_offset h)] ->
  exists F r r', write_file sv h ps = Ok F /\ reader_open xml doy year F = Ok r /\
    rops_run xml r (repeat RNext (length ps + m)) =
    Ok (r', map (fun p => (ATrue, record_of (get_record_length h) p)) ps ++
        repeat (AFalse, last (map (record_of (get_record_length h)) ps) (repeat 0 (Z.to_nat (get_record_length h)))) m).
Proof. exact read_back. Qed.
Print Assumptions C22_write_then_read.

Example C22_instance : session_ok no_sv (sample_header 2) (sample_points (sample_header 2)) /\
  Forall (fun x => f64_fin x = true) [x_of (h_scale (sample_header 2)); y_of (h_scale (sample_header 2)); z_of (h_scale (sample_header 2));
    x_of (h_offset (sample_header 2)); y_of (h_offset (sample_header 2)); z_of (h_offset (sample_header 2))].
Proof. split; [apply sample_session; now right|]. repeat apply Forall_cons; try apply Forall_nil; vm_compute; reflexivity. Qed.

(** C23: appending to a file that was opened with the library's reader.  All
    bytes after the header block are kept, the records follow, and the header
    block says the same as before with the new count (version 1.0: and the
    reserved word in place of the source id). *)
Theorem C23_append_partial : forall sv xml doy year F ps, las_file F -> no_schema_vlr F -> 0 < f_npts F -> 0 < f_reclen F ->
  f_npts F + Z.of_nat (length ps) < 2 ^ 32 -> Forall (point_fits (f_reclen F)) ps ->
  exists r F', reader_open xml doy year F = Ok r /\ write_session sv F (r_hdr r) ps = Ok F' /\
    skipn 227 F' = skipn 227 F ++ records (f_reclen F) ps /\ length F' = (length F + length (records (f_reclen F) ps))%nat /\
    slice F' 8 16 = guid_swap (slice F 8 16) /\
    pub_of_file F' = with_count (if u_at F 25 1 =? 0 then with_source (pub_of_file F) (u_at F 6 2) 0 else pub_of_file F)
                                (f_npts F + Z.of_nat (length ps)).
Proof. exact append_reopen. Qed.
Print Assumptions C23_append_partial.

(** If the file ends with its last record, the new records are the ones numbered
    n, n+1, ... and the old ones are unchanged. *)
Theorem C23_records_partial : forall sv xml doy year F ps, las_file F -> no_schema_vlr F -> 0 < f_npts F -> 0 < f_reclen F ->
  f_npts F + Z.of_nat (length ps) < 2 ^ 32 -> Forall (point_fits (f_reclen F)) ps -> 227 <= f_doff F ->
  f_doff F + f_npts F * f_reclen F = Z.of_nat (length F) ->
  exists r F', reader_open xml doy year F = Ok r /\ write_session sv F (r_hdr r) ps = Ok F' /\
    f_npts F' = f_npts F + Z.of_nat (length ps) /\ f_reclen F' = f_reclen F /\ complete F' /\
    (forall k, 0 <= k < f_npts F -> file_record F' k = file_record F k) /\
    (forall k p, nth_error ps k = Some p -> file_record F' (f_npts F + Z.of_nat k) = record_of (f_reclen F) p).
Proof. exact append_records. Qed.
Print Assumptions C23_records_partial.

Definition c23_file : list Z := raw_file 2 227 0 0 20 2 (rec_of 7 ++ rec_of 9).
Definition c23_points : list point := [mkPoint (rec_of 11) (sample_header 2)].
Example C23_instance : las_file c23_file /\ no_schema_vlr c23_file /\ f_npts c23_file = 2 /\ f_reclen c23_file = 20 /\
  Forall (point_fits 20) c23_points /\ f_doff c23_file = 227 /\ Z.of_nat (length c23_file) = 267.
Proof.
  split; [apply las_fileb_ok; vm_compute; reflexivity|]. split; [apply no_schema_vlrb; vm_compute; reflexivity|].
  split; [vm_compute; reflexivity|]. split; [vm_compute; reflexivity|]. split; [|split; vm_compute; reflexivity].
  apply Forall_cons; [|apply Forall_nil]. split; [vm_compute; discriminate|discriminate].
Qed.

(** "Every byte but the count" is false: the project id changes ... *)
Theorem C23_bytes_preserved_refuted : exists F ps, forall sv xml, las_file F /\ no_schema_vlr F /\
  exists r F', reader_open xml 1 2012 F = Ok r /\ write_session sv F (r_hdr r) ps = Ok F' /\ slice F' 8 16 <> slice F 8 16.
Proof.
  exists c23_file, c23_points. intros sv xml. destruct C23_instance as (A & B & C & D & E & _).
  split; [exact A|]. split; [exact B|].
  destruct (C23_append_partial sv xml 1 2012 c23_file c23_points A B) as (r & F' & E1 & E2 & _ & _ & E3 & _); try (rewrite ?C, ?D; reflexivity || exact E).
  exists r, F'. split; [exact E1|]. split; [exact E2|]. rewrite E3. vm_compute. discriminate.
Qed.
Print Assumptions C23_bytes_preserved_refuted.

(** ... and if bytes follow the last record, the appended point is not found as
    the next record. *)
Definition c23_trailing : list Z := c23_file ++ [1; 2; 3; 4; 5].
Theorem C23_trailing_bytes_refuted : exists F p, forall sv xml, las_file F /\ no_schema_vlr F /\ complete F /\ point_fits (f_reclen F) p /\
  exists r F', reader_open xml 1 2012 F = Ok r /\ write_session sv F (r_hdr r) [p] = Ok F' /\ f_npts F' = f_npts F + 1 /\
    file_record F' (f_npts F) <> record_of (f_reclen F) p.
Proof.
  exists c23_trailing, (mkPoint (rec_of 11) (sample_header 2)). intros sv xml.
  assert (A : las_file c23_trailing) by (apply las_fileb_ok; vm_compute; reflexivity).
  assert (B : no_schema_vlr c23_trailing) by (apply no_schema_vlrb; vm_compute; reflexivity).
  assert (C : f_npts c23_trailing = 2) by (vm_compute; reflexivity).
  assert (D : f_reclen c23_trailing = 20) by (vm_compute; reflexivity).
  assert (E : point_fits (f_reclen c23_trailing) (mkPoint (rec_of 11) (sample_header 2))) by (rewrite D; split; [vm_compute; discriminate|discriminate]).
  split; [exact A|]. split; [exact B|]. split; [split; [rewrite D; lia|intros _; vm_compute; discriminate]|]. split; [exact E|].
  destruct (C23_append_partial sv xml 1 2012 c23_trailing [mkPoint (rec_of 11) (sample_header 2)] A B) as (r & F' & E1 & E2 & E3 & E4 & _ & E5);
    try (rewrite ?C, ?D; reflexivity).
  { apply Forall_cons; [exact E|apply Forall_nil]. }
  exists r, F'. split; [exact E1|]. split; [exact E2|].
  assert (N : f_npts F' = f_npts c23_trailing + 1) by (pose proof (f_equal ph_npts E5) as X; exact X).
  assert (R : f_reclen F' = 20) by (rewrite <- D; pose proof (f_equal ph_reclen E5) as X; destruct (u_at c23_trailing 25 1 =? 0); exact X).
  assert (O : f_doff F' = 227) by (pose proof (f_equal ph_doff E5) as X; change (f_doff F') with (ph_doff (pub_of_file F')); rewrite X; vm_compute; reflexivity).
  split; [exact N|]. unfold file_record. rewrite R, O, C, D.
  assert (S : slice F' (Z.to_nat (227 + 2 * 20)) (Z.to_nat 20) = slice (skipn 227 F') 40 20).
  { unfold slice. rewrite skipn_skipn. reflexivity. }
  rewrite S, E3. rewrite D. vm_compute. discriminate.
Qed.
Print Assumptions C23_trailing_bytes_refuted.

(** C47: calling WriteHeader again after points were written keeps neither the
    count nor the position: the count field becomes 0 and the next point
    overwrites the first record. *)
Theorem C47_write_header_again_exact : forall sv h ps, fresh_ok sv h -> Forall (point_fits (get_record_length h)) ps -> h_npts h = 0 ->
  exists w w1 w2 F, writer_new sv (os_open []) h = Ok w /\ write_points w ps = Ok w1 /\ writer_write_header sv w1 = Ok w2 /\
    w_count w2 = 0 /\ os_pos (w_os w2) = data_start sv h /\ os_data (w_os w2) = os_data (w_os w1) /\
    writer_close w2 = Ok F /\ u_at F 107 4 = 0.
Proof. exact again_ok. Qed.
Print Assumptions C47_write_header_again_exact.

Theorem C47_count_kept_refuted : exists h p w w1 w2 F, session_ok no_sv h [p] /\
  writer_new no_sv (os_open []) h = Ok w /\ write_points w [p] = Ok w1 /\ writer_write_header no_sv w1 = Ok w2 /\
  writer_close w2 = Ok F /\ u_at F 107 4 <> 1.
Proof.
  assert (HS : session_ok no_sv (sample_header 2) [sample_point (sample_header 2) 17]) by (apply session_okb_ok; vm_compute; reflexivity).
  destruct (session_parts _ _ _ HS) as (A & _ & _ & _ & B & _).
  destruct (C47_write_header_again_exact no_sv (sample_header 2) [sample_point (sample_header 2) 17] A B) as (w & w1 & w2 & F & E1 & E2 & E3 & _ & _ & _ & E4 & E5);
    [vm_compute; reflexivity|].
  exists (sample_header 2), (sample_point (sample_header 2) 17), w, w1, w2, F.
  repeat (split; [assumption|]). rewrite E5. discriminate.
Qed.
Print Assumptions C47_count_kept_refuted.

(** Writing a file and reading it back. *)
From Coq Require Import ZArith List Bool Lia String.
From Coq Require Import ZifyBool ZifyNat.
Import ListNotations.
From Verif Require Import Outcome Bytes Float64 Float64_Proofs CStr Vlr_Model Schema_Model Schema_Spec Schema_Api Schema_Proofs
  Header_Model Point_Model Stream_Model Stream_Proofs Writer_Model IO_Spec Writer_Api Writer_Proofs Writer_File Writer_V10
  Reader_Model Reader_Proofs Reader_Vlrs Reader_Open Reader_Spec Reader_Api Reader_Hist Writer_RT Writer_Append.
Local Open Scope Z_scope.
Local Notation length := List.length (only parsing).

Definition point_bytes (p : point) : Prop := bytes_ok (p_data p).
Definition stored_src (h : header) : Z := if h_vmin h =? 0 then h_reserved h else h_srcid h.
Definition stored_res (h : header) : Z := if h_vmin h =? 0 then 0 else h_reserved h.

Lemma expected_pub_ok sv h n : fresh_ok sv h -> 0 <= n < 2 ^ 32 ->
  pub_of_header (stored_view (file_header sv h n)) = expected_pub sv h n (stored_src h) (stored_res h).
Proof.
  intros HF Hn. destruct (file_header_fields sv h n HF Hn) as (E1&E2&E3&E4&E5&E6&E7&E8&E9&E10&E11).
  unfold stored_view, stored_src, stored_res. rewrite E5. change (data_start sv h) with (fresh_doff sv h).
  set (H := file_header sv h n) in *.
  assert (R : h_sig H = h_sig h /\ h_sysid H = h_sysid h /\ h_swid H = h_swid h /\ h_doy H = h_doy h /\ h_year H = h_year h /\
    h_byret H = h_byret h /\ h_max H = h_max h /\ h_min H = h_min h /\ h_srcid H = h_srcid h /\ h_reserved H = h_reserved h) by (repeat split).
  destruct R as (R1&R2&R3&R4&R5&R6&R7&R8&R9&R10). clearbody H.
  unfold expected_pub, get_file_signature, get_system_id, get_software_id, get_format, get_record_length.
  change (data_start sv h) with (fresh_doff sv h). cbn [andb].
  destruct (h_vmin h =? 0); unfold pub_of_header, as_v10, get_file_signature, get_system_id, get_software_id, get_format, get_record_length;
    cbn [h_upd_reserved h_upd_srcid h_sig h_srcid h_reserved h_vmaj h_vmin h_sysid h_swid h_doy h_year h_hsize h_doff h_nvlr h_schema h_npts h_byret h_scale h_offset h_max h_min andb];
    congruence.
Qed.

Lemma write_file_image sv h ps : fresh_ok sv h -> Forall (point_fits (get_record_length h)) ps ->
  Z.of_nat (length ps) < 2 ^ 32 -> write_file sv h ps = Ok (file_image sv h ps).
Proof. intros. now apply write_file_ok. Qed.

Definition session_ok (sv : schema -> vlr) (h : header) (ps : list point) : Prop :=
  fresh_ok sv h /\ las_header h /\ no_schema_written sv h /\ Z.of_nat (length ps) < 2 ^ 32 /\
  Forall (fun p => point_fits (get_record_length h) p /\ bytes_ok (p_data p)) ps.

Lemma session_parts sv h ps : session_ok sv h ps ->
  fresh_ok sv h /\ las_header h /\ no_schema_written sv h /\ Z.of_nat (length ps) < 2 ^ 32 /\
  Forall (point_fits (get_record_length h)) ps /\ Forall (fun p => bytes_ok (p_data p)) ps.
Proof.
  intros (A & B & C & D & E). repeat (split; [assumption|]). split; (eapply Forall_impl; [|exact E]); cbv beta; tauto.
Qed.

(** a writing session without the condition on schema VLRs *)
Definition session_core (sv : schema -> vlr) (h : header) (ps : list point) : Prop :=
  fresh_ok sv h /\ las_header h /\ Z.of_nat (length ps) < 2 ^ 32 /\
  Forall (fun p => point_fits (get_record_length h) p /\ bytes_ok (p_data p)) ps.
Lemma session_core_ok sv h ps : session_ok sv h ps -> session_core sv h ps.
Proof. intros (A & B & C & D & E). exact (conj A (conj B (conj D E))). Qed.
Lemma core_parts sv h ps : session_core sv h ps ->
  fresh_ok sv h /\ las_header h /\ Z.of_nat (length ps) < 2 ^ 32 /\
  Forall (point_fits (get_record_length h)) ps /\ Forall (fun p => bytes_ok (p_data p)) ps.
Proof.
  intros (A & B & D & E). repeat (split; [assumption|]). split; (eapply Forall_impl; [|exact E]); cbv beta; tauto.
Qed.
Lemma written_standard sv xml h ps : fresh_ok sv h -> las_header h -> Z.of_nat (length ps) < 2 ^ 32 ->
  falls_back xml (map vlr_norm (written_vlrs sv h)) -> reads_standard xml (file_image sv h ps).
Proof.
  intros HF (_ & _ & _ & L4 & _) Hn HB. unfold reads_standard.
  destruct (written_vlrs_read sv h ps HF ltac:(lia) Hn) as (-> & _). exact HB.
Qed.
Lemma plain_written_standard sv xml h : no_schema_written sv h -> falls_back xml (map vlr_norm (written_vlrs sv h)).
Proof.
  intros H. apply plain_falls_back. apply Forall_map. eapply Forall_impl; [|exact H]. cbv beta. intros v Hv. now rewrite has_id_norm.
Qed.

Lemma reopen_x sv xml doy year h ps : session_core sv h ps -> falls_back xml (map vlr_norm (written_vlrs sv h)) ->
  write_file sv h ps = Ok (file_image sv h ps) /\ las_file (file_image sv h ps) /\ reads_standard xml (file_image sv h ps) /\
  complete (file_image sv h ps) /\
  exists r, reader_open xml doy year (file_image sv h ps) = Ok r /\ rinv (file_image sv h ps) r /\ r_current r = 0 /\
   pub_of_header (r_hdr r) = expected_pub sv h (Z.of_nat (length ps)) (stored_src h) (stored_res h) /\
   h_guid (r_hdr r) = guid_swap (h_guid h) /\
   h_vlrs (r_hdr r) = map vlr_norm (written_vlrs sv h) /\
   vlr_block_size (r_hdr r) = Ok (vlrs_size (written_vlrs sv h)) /\ header_wf (r_hdr r).
Proof.
  intros HS HFB. destruct (core_parts sv h ps HS) as (HF & HL & Hn & HP & HB).
  pose proof (written_standard sv xml h ps HF HL Hn HFB) as NS.
  destruct HL as (L1 & L2 & L3 & L4 & L5).
  set (F := file_image sv h ps) in *.
  assert (LF : las_file F) by (now apply written_las_file).
  assert (CO : complete F) by (apply written_complete; assumption || lia).
  split; [now apply write_file_image|]. split; [exact LF|]. split; [exact NS|]. split; [exact CO|].
  destruct (open_ok_x xml doy year F LF NS) as (r & E & Hi & Hc & Hd & Hv & Hs & HW).
  exists r. split; [exact E|]. split; [exact Hi|]. split; [exact Hc|].
  destruct (written_vlrs_read sv h ps HF ltac:(lia) Hn) as (V1 & _). fold F in V1.
  destruct Hi as ((P & G & _) & _).
  split.
  { rewrite P. unfold F. rewrite pub_of_written by (assumption || lia). apply expected_pub_ok; [exact HF|lia]. }
  split.
  { rewrite G. unfold F, file_image.
    destruct (then_at_split (hdr_bytes (file_header sv h (Z.of_nat (length ps)))) (Z.to_nat (h_hsize h))
          (fresh_tail sv h ++ records (get_record_length h) ps)) as [rest ->].
    rewrite guid_of_hdr by (now apply file_header_wf). reflexivity. }
  split; [rewrite Hv; exact V1|].
  split; [|exact HW].
  rewrite vlr_block_ok.
  - f_equal. rewrite Hv, V1. generalize (written_vlrs sv h). induction l as [|v l IH]; [reflexivity|].
    cbn [map vlrs_size fold_right]. fold (vlrs_size (map vlr_norm l)). fold (vlrs_size l). rewrite IH. reflexivity.
  - pose proof (f_equal ph_nvlr P) as PN. cbn [ph_nvlr pub_of_header pub_of_file] in PN. rewrite PN, Hv, V1, map_length.
    destruct (written_fields sv h ps HF ltac:(lia) Hn) as (_&_&_&_&_&E100&_). exact E100.
  - rewrite Hv, V1. assert (X : forall l, vlrs_size (map vlr_norm l) = vlrs_size l).
    { induction l as [|v l IH]; [reflexivity|]. cbn [map vlrs_size fold_right]. fold (vlrs_size (map vlr_norm l)). fold (vlrs_size l). rewrite IH. reflexivity. }
    rewrite X. destruct HF as (_ & _ & _ & _ & _ & _ & HB2 & _). destruct (fresh_bounds sv h (proj1 HS)) as (B1 & _). lia.
Qed.

Lemma reopen sv xml doy year h ps : session_ok sv h ps ->
  write_file sv h ps = Ok (file_image sv h ps) /\ las_file (file_image sv h ps) /\ no_schema_vlr (file_image sv h ps) /\
  complete (file_image sv h ps) /\
  exists r, reader_open xml doy year (file_image sv h ps) = Ok r /\ rinv (file_image sv h ps) r /\ r_current r = 0 /\
   pub_of_header (r_hdr r) = expected_pub sv h (Z.of_nat (length ps)) (stored_src h) (stored_res h) /\
   h_guid (r_hdr r) = guid_swap (h_guid h) /\
   h_vlrs (r_hdr r) = map vlr_norm (written_vlrs sv h) /\
   vlr_block_size (r_hdr r) = Ok (vlrs_size (written_vlrs sv h)) /\ header_wf (r_hdr r).
Proof.
  intros HS. destruct (session_parts sv h ps HS) as (HF & HL & HN & Hn & HP & HB).
  destruct (reopen_x sv xml doy year h ps (session_core_ok sv h ps HS) (plain_written_standard sv xml h HN)) as (A & B & _ & C & D).
  split; [exact A|]. split; [exact B|]. split; [|split; [exact C|exact D]].
  destruct HL as (L1 & L2 & L3 & L4 & L5). now apply written_no_schema.
Qed.

(** sequential reading of a list of records *)
Lemma cur_next_run F : complete F -> 0 <= f_npts F -> forall k c p, Z.of_nat k = f_npts F - c -> 0 <= c -> forall m,
  cur_run F (c, p) (repeat RNext (k + m)) =
  map (fun i => (ATrue, file_record F (c + Z.of_nat i))) (seq 0 k) ++
  repeat (AFalse, match k with O => p | S j => file_record F (c + Z.of_nat j) end) m.
Proof.
  intros HC HN. induction k as [|k IH]; intros c p Hk Hc m.
  - cbn [Nat.add seq map app]. induction m as [|m IHm]; [reflexivity|]. cbn [repeat cur_run cur_step].
    destruct (Z.ltb_spec c (f_npts F)); [lia|]. cbn [snd]. now rewrite IHm.
  - cbn [Nat.add repeat cur_run cur_step]. destruct (Z.ltb_spec c (f_npts F)); [|lia]. cbn [snd].
    rewrite IH by lia. cbn [seq map app]. rewrite Z.add_0_r. f_equal. rewrite <- seq_shift, map_map. f_equal.
    + apply map_ext. intros i. f_equal. f_equal. lia.
    + f_equal. f_equal. destruct k; f_equal; lia.
Qed.

Lemma read_back_x sv xml doy year h ps m : session_core sv h ps -> falls_back xml (map vlr_norm (written_vlrs sv h)) ->
  Forall (fun x => f64_fin x = true) [x_of (h_scale h); y_of (h_scale h); z_of (h_scale h); x_of (h_offset h); y_of (h_offset h); z_of (h_offset h)] ->
  exists F r r', write_file sv h ps = Ok F /\ reader_open xml doy year F = Ok r /\
    rops_run xml r (repeat RNext (length ps + m)) =
    Ok (r', map (fun p => (ATrue, record_of (get_record_length h) p)) ps ++
        repeat (AFalse, last (map (record_of (get_record_length h)) ps) (repeat 0 (Z.to_nat (get_record_length h)))) m).
Proof.
  intros HS HFB Hfin. destruct (core_parts sv h ps HS) as (HF & HL & Hn & HP & HB).
  pose proof (written_standard sv xml h ps HF HL Hn HFB) as NS.
  destruct HL as (L1 & L2 & L3 & L4 & L5).
  set (F := file_image sv h ps) in *.
  assert (LF : las_file F) by (now apply written_las_file).
  assert (CO : complete F) by (apply written_complete; assumption || lia).
  destruct (open_ok_x xml doy year F LF NS) as (r & E & Hi & Hc & Hd & Hv & Hs & HW).
  assert (FIN : finite_scaling F) by (now apply written_finite).
  destruct (written_fields sv h ps HF ltac:(lia) Hn) as (_&_&_&_&_&_&_&E105&E107&_). fold F in E105, E107.
  assert (RC : rcur F r 0).
  { split; [exact Hi|]. split; [exact Hc|]. unfold f_npts. rewrite E107. split; lia. }
  destruct (rcur_run_x xml F (repeat RNext (length ps + m)) r 0 LF NS FIN CO) as (r' & ER); try assumption.
  { apply Forall_forall. intros o Ho. apply repeat_spec in Ho. subst. exact I. }
  { apply Forall_forall. intros o Ho. apply repeat_spec in Ho. subst. reflexivity. }
  exists F, r, r'. split; [now apply write_file_image|]. split; [exact E|]. rewrite ER. f_equal. f_equal.
  rewrite cur_next_run; try assumption; try (unfold f_npts; rewrite E107; lia); [|lia].
  assert (REC : forall k p, nth_error ps k = Some p -> file_record F (0 + Z.of_nat k) = record_of (get_record_length h) p).
  { intros k p Hk. rewrite Z.add_0_l. apply written_record; assumption || lia. }
  assert (SEQ : map (fun i => (ATrue, file_record F (0 + Z.of_nat i))) (seq 0 (length ps)) =
     map (fun p => (ATrue, record_of (get_record_length h) p)) ps).
  { apply nth_error_ext. intros i. destruct (Nat.lt_ge_cases i (length ps)) as [Hi'|Hi'].
    - destruct (nth_error ps i) as [p|] eqn:Ep; [|apply nth_error_None in Ep; lia].
      rewrite nth_error_map, (map_nth_error _ _ _ Ep).
      assert (ES : nth_error (seq 0 (length ps)) i = Some i).
      { rewrite (nth_error_nth' _ 0%nat) by (now rewrite seq_length). now rewrite seq_nth by lia. }
      rewrite ES. cbn [option_map]. now rewrite (REC i p Ep).
    - rewrite (proj2 (nth_error_None _ _)) by (rewrite map_length, seq_length; lia). symmetry. apply nth_error_None. rewrite map_length. lia. }
  rewrite SEQ. f_equal. f_equal. f_equal.
  destruct (length ps) as [|j] eqn:EL.
  - destruct ps; [|discriminate]. cbn [map last]. rewrite Hd. unfold f_reclen. now rewrite E105.
  - destruct (nth_error ps j) as [p|] eqn:Ep; [|apply nth_error_None in Ep; lia].
    rewrite (REC j p Ep). clear -Ep EL. revert j Ep EL. induction ps as [|q ps IH]; intros j Ep EL; [discriminate|].
    cbn [List.length] in EL. injection EL as EL. destruct j as [|j].
    + destruct ps; [|discriminate]. cbn [nth_error] in Ep. injection Ep as ->. reflexivity.
    + destruct ps as [|q2 ps]; [discriminate|]. cbn [map]. cbn [nth_error] in Ep.
      change (last (record_of (get_record_length h) q :: record_of (get_record_length h) q2 :: map (record_of (get_record_length h)) ps) ?d)
        with (last (map (record_of (get_record_length h)) (q2 :: ps)) d). eapply IH; eauto.
Qed.

Lemma read_back sv xml doy year h ps m : session_ok sv h ps ->
  Forall (fun x => f64_fin x = true) [x_of (h_scale h); y_of (h_scale h); z_of (h_scale h); x_of (h_offset h); y_of (h_offset h); z_of (h_offset h)] ->
  exists F r r', write_file sv h ps = Ok F /\ reader_open xml doy year F = Ok r /\
    rops_run xml r (repeat RNext (length ps + m)) =
    Ok (r', map (fun p => (ATrue, record_of (get_record_length h) p)) ps ++
        repeat (AFalse, last (map (record_of (get_record_length h)) ps) (repeat 0 (Z.to_nat (get_record_length h)))) m).
Proof.
  intros HS. apply read_back_x; [now apply session_core_ok|]. apply plain_written_standard, HS.
Qed.

(** ** appending *)
Lemma append_reopen sv xml doy year F ps : las_file F -> no_schema_vlr F -> 0 < f_npts F -> 0 < f_reclen F ->
  f_npts F + Z.of_nat (length ps) < 2 ^ 32 -> Forall (point_fits (f_reclen F)) ps ->
  exists r F', reader_open xml doy year F = Ok r /\ write_session sv F (r_hdr r) ps = Ok F' /\
    skipn 227 F' = skipn 227 F ++ records (f_reclen F) ps /\ length F' = (length F + length (records (f_reclen F) ps))%nat /\
    slice F' 8 16 = guid_swap (slice F 8 16) /\
    pub_of_file F' = with_count (if u_at F 25 1 =? 0 then with_source (pub_of_file F) (u_at F 6 2) 0 else pub_of_file F)
                                (f_npts F + Z.of_nat (length ps)).
Proof.
  intros LF NS Hn Hr Hm HP. pose proof LF as (HB & HL & Hsig & Hmaj & Hmin & Hoff & Hfmt & HV).
  destruct (open_ok xml doy year F LF NS) as (r & E & Hi & Hc & Hd & Hv & Hs & HW).
  destruct Hi as (SH & _). pose proof (shows_npts F _ SH) as EN. pose proof (shows_reclen F _ SH) as ER.
  destruct SH as (P & G & HC & _ & _ & _ & HF).
  set (h := r_hdr r) in *.
  pose proof (append_ok sv F h ps HL HW) as A. rewrite EN, ER in A. specialize (A Hn Hm HP).
  set (h' := set_point_count h (f_npts F + Z.of_nat (length ps))) in *.
  assert (W' : header_wf h') by (now apply wf_set_npts). pose proof (hdr_bytes_len h' W') as LH.
  eexists r, _. split; [exact E|]. split; [exact A|].
  split; [rewrite skipn_app, skipn_all2 by lia; rewrite LH, Nat.sub_diag; reflexivity|].
  split; [rewrite !app_length, skipn_length, LH; lia|].
  split; [rewrite guid_of_hdr by assumption; change (h_guid h') with (h_guid h); now rewrite G|].
  pose proof (u_at_range F 104 1 HB) as Rf.
  rewrite pub_of_hdr; [|exact W'|exact HC|unfold get_format; change (h_schema h') with (h_schema h); rewrite HF; lia].
  assert (EV : h_vmin h' = u_at F 25 1) by exact (f_equal ph_vmin P).
  assert (EN' : h_npts h' = f_npts F + Z.of_nat (length ps)) by (unfold h', set_point_count; cbn [h_npts h_upd_npts]; apply Z.mod_small; lia).
  unfold stored_view. rewrite EV.
  assert (PC : pub_of_header h' = with_count (pub_of_file F) (f_npts F + Z.of_nat (length ps))).
  { rewrite <- P, <- EN'. reflexivity. }
  destruct (u_at F 25 1 =? 0).
  - assert (PV : pub_of_header (as_v10 h') = with_source (pub_of_header h') (h_reserved h') 0) by reflexivity.
    rewrite PV, PC. assert (ERs : h_reserved h' = u_at F 6 2) by exact (f_equal ph_reserved P). rewrite ERs. reflexivity.
  - exact PC.
Qed.

(** the records after an append to a file that ends with its last record *)
Lemma append_records sv xml doy year F ps : las_file F -> no_schema_vlr F -> 0 < f_npts F -> 0 < f_reclen F ->
  f_npts F + Z.of_nat (length ps) < 2 ^ 32 -> Forall (point_fits (f_reclen F)) ps -> 227 <= f_doff F ->
  f_doff F + f_npts F * f_reclen F = Z.of_nat (length F) ->
  exists r F', reader_open xml doy year F = Ok r /\ write_session sv F (r_hdr r) ps = Ok F' /\
    f_npts F' = f_npts F + Z.of_nat (length ps) /\ f_reclen F' = f_reclen F /\ complete F' /\
    (forall k, 0 <= k < f_npts F -> file_record F' k = file_record F k) /\
    (forall k p, nth_error ps k = Some p -> file_record F' (f_npts F + Z.of_nat k) = record_of (f_reclen F) p).
Proof.
  intros LF NS Hn Hr Hm HP Hd HE.
  destruct (append_reopen sv xml doy year F ps LF NS Hn Hr Hm HP) as (r & F' & E1 & E2 & ES & EL & _ & EP).
  exists r, F'. split; [exact E1|]. split; [exact E2|]. pose proof LF as (HB & HL & _).
  destruct (fields_nonneg F HB) as (D0 & N0 & L0).
  assert (EN : f_npts F' = f_npts F + Z.of_nat (length ps)) by (pose proof (f_equal ph_npts EP) as X; exact X).
  assert (ER : f_reclen F' = f_reclen F).
  { pose proof (f_equal ph_reclen EP) as X. destruct (u_at F 25 1 =? 0); exact X. }
  assert (ED : f_doff F' = f_doff F).
  { pose proof (f_equal ph_doff EP) as X. destruct (u_at F 25 1 =? 0); exact X. }
  split; [exact EN|]. split; [exact ER|].
  pose proof (records_len (f_reclen F) ps ltac:(lia) HP) as RL.
  assert (SL : forall o n, (227 <= o)%nat -> slice F' o n = slice (F ++ records (f_reclen F) ps) o n).
  { intros o n Ho. unfold slice. f_equal. replace o with ((o - 227) + 227)%nat by lia. rewrite <- !skipn_skipn.
    rewrite ES, (skipn_app 227). replace (227 - length F)%nat with 0%nat by lia. reflexivity. }
  split.
  { unfold complete. rewrite EN, ER, ED. split; [exact Hr|]. intros _. rewrite EL, RL. nia. }
  unfold file_record. rewrite ED, ER. split.
  - intros k Hk. assert (M0 : 0 <= k * f_reclen F) by (apply Z.mul_nonneg_nonneg; lia).
    assert (M1 : (k + 1) * f_reclen F <= f_npts F * f_reclen F) by (apply Z.mul_le_mono_nonneg_r; lia).
    rewrite SL by lia. apply slice_app_l. lia.
  - intros k p Hk. rewrite SL.
    2:{ assert (M0 : 0 <= (f_npts F + Z.of_nat k) * f_reclen F) by (apply Z.mul_nonneg_nonneg; lia). lia. }
    replace (Z.to_nat (f_doff F + (f_npts F + Z.of_nat k) * f_reclen F)) with (length F + k * Z.to_nat (f_reclen F))%nat by nia.
    apply records_slice; [lia|assumption|assumption].
Qed.

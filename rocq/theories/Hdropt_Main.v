(** las2las with header options: the whole run. *)
From Coq Require Import ZArith List Bool Lia String.
From Coq Require Import ZifyBool ZifyNat.
Import ListNotations.
From Verif Require Import Outcome Bytes Float64 Float64_Proofs CStr Vlr_Model Schema_Model Schema_Spec Schema_Api Schema_Proofs Header_Model Point_Model Stream_Model Stream_Proofs
  IO_Spec Reader_Proofs Reader_Vlrs Reader_Model Reader_Spec Reader_Schema Reader_Api Reader_Open Reader_Hist Reader_Filter Writer_Model Writer_Api Writer_Proofs Writer_File
  Writer_Append IO_Samples Prop_Reader Iter_Spec Iter_Model Iter_Proofs Rewrite_Proofs Rewrite_Gap Rewrite_Read Prop_Rewrite Summary_Model Summary_Spec Summary_Proofs Prop_Summary Text_Model Text_Proofs
  Las2las_Spec Las2las_Copy Las2las_Model Las2las_Summary Las2las_File Las2las_Loop Las2las_Points Las2las_Main Las2las_Split Prop_Las2las
  Cli_Model Cli_Spec Cli_Proofs Hdropt_Model Hdropt_Spec Hdropt_Write Hdropt_Proofs.
Local Open Scope Z_scope.
Local Notation length := List.length (only parsing).

Lemma name_after a b x : both (fun v s => s = v /\ label 32 v) a b -> until_nul (or_else (option_map (strncpy 32) a) x) = or_else a (until_nul x).
Proof.
  destruct a as [a|], b as [b|]; cbn [both or_else option_map]; try tauto. intros (_ & L & _ & N). rewrite strncpy_short by exact L. now apply until_nul_id.
Qed.
Lemma bits_after a x : bits3 (or_else a x) = or_else (option_map bits3 a) (bits3 x).
Proof. destruct a; reflexivity. Qed.

Lemma pub_after atof readraw t c o h s n : typed_as atof readraw t c o -> s_format s = or_else (c_format c) (get_format h) ->
  schema_bytes s mod 2 ^ 16 = or_else (option_map std_length (c_format c)) (get_record_length h) ->
  pub_of_header (after c h s n) = with_vlrs (changed c (pub_of_header h)) n.
Proof.
  intros (_ & _ & _ & _ & _ & _ & T7 & T8 & _) F L.
  pose proof (name_after _ _ (h_swid h) T7) as E7. pose proof (name_after _ _ (h_sysid h) T8) as E8.
  assert (EF : get_format (after c h s n) = or_else (c_format c) (get_format h)) by exact F.
  assert (EL : get_record_length (after c h s n) = or_else (option_map std_length (c_format c)) (get_record_length h)) by exact L.
  assert (G7 : get_software_id false (after c h s n) = or_else (c_software c) (get_software_id false h)) by exact E7.
  assert (G8 : get_system_id false (after c h s n) = or_else (c_system c) (get_system_id false h)) by exact E8.
  assert (GS : bits3 (h_scale (after c h s n)) = or_else (option_map bits3 (c_scale c)) (bits3 (h_scale h))) by apply bits_after.
  assert (GO : bits3 (h_offset (after c h s n)) = or_else (option_map bits3 (c_offset c)) (bits3 (h_offset h))) by apply bits_after.
  unfold pub_of_header at 1. rewrite EF, EL, G7, G8, GS, GO. reflexivity.
Qed.

Lemma lossy_stored p : stored (stored p) = lossy p.
Proof. unfold stored, lossy. destruct (ph_vmin p =? 0) eqn:E; cbn [ph_vmin with_source]; rewrite E; reflexivity. Qed.
Lemma stored_returns p mx mn l : with_returns (with_bounds (stored p) mx mn) l = stored (with_returns (with_bounds p mx mn) l).
Proof. unfold stored. cbn [ph_vmin with_returns with_bounds ph_reserved]. destruct (ph_vmin p =? 0); reflexivity. Qed.
Lemma stored_npts p : ph_npts (stored p) = ph_npts p.
Proof. unfold stored. destruct (_ =? _); reflexivity. Qed.
Lemma geo_last_length l : length (geo_last l) = length l.
Proof. unfold geo_last. apply length_split. Qed.
Lemma geo_last_size l : vlrs_size (geo_last l) = vlrs_size l.
Proof. apply vlrs_size_split. Qed.

Lemma std_layout_bytes k s fmt : sinv k s (std_fields fmt) -> 0 <= fmt <= 3 -> schema_bytes s = std_length fmt.
Proof.
  intros I H. rewrite (sinv_bytes _ _ _ I), std_total by exact H. pose proof (std_length_small fmt). rewrite Z.mod_small by lia. rewrite Z.mul_comm. apply Z.div_mul. lia.
Qed.

Section Part.
Variable atof : text -> f64.
Variable readraw : text -> option (list Z).

Lemma after_facts t F c o h s n : typed_as atof readraw t c o -> doable F c -> shows_file F h -> header_wf h -> h_vlrs h = file_vlrs F ->
  h_hsize h = u_at F 94 2 -> h_doff h = f_doff F -> (0 <= gap F -> h_pad h = gap F) ->
  in_unsigned 32 n -> s_format s = or_else (c_format c) (u_at F 104 1) -> (exists k, sinv k s (std_fields (or_else (c_format c) (u_at F 104 1)))) ->
  let h2 := after c h s n in
  writable (t_sv t) h2 /\ is_custom (h_schema h2) = false /\ las_header h2 /\ no_schema_written (t_sv t) h2 /\ finite3 (h_scale h2) /\ finite3 (h_offset h2) /\
  get_record_length h2 = std_length (get_format h2) /\ first_record (t_sv t) h2 = start_after F c /\ get_record_length h2 = reclen_after F c /\
  written_vlrs (t_sv t) h2 = geo_last (vlrs_after F c) /\
  with_nvlr (pub_of_header h2) (Z.of_nat (length (vlrs_after F c))) = with_vlrs (changed c (pub_of_file F)) (Z.of_nat (length (vlrs_after F c))).
Proof.
  intros HT HC Sh HW Hv Hh Hd Hp Un FS (k & IS). cbv zeta. set (h2 := after c h s n).
  destruct HC as ((HSt & HG & Hg1 & HSS) & CO & CS & CV & CB & C0). pose proof HSt as (HA & HP). pose proof HA as (HF & HN & FSc & HCm).
  pose proof HP as (_ & _ & HL & HZ & H94 & Hd2 & He). pose proof Sh as (P & Pg & PC & PB & Psr & PI & PF).
  destruct (plain_written (t_sv t) F h HP Sh Hv) as (Cu & _ & Scrs & Ssrs).
  pose proof HF as (HB & HLen & Hsig & Hmaj & Hmin & Hoff & Hfmt & HV).
  pose proof (u_at_range F 104 1 HB) as R104. pose proof (u_at_range F 25 1 HB) as R25.
  set (fmt := or_else (c_format c) (u_at F 104 1)) in *.
  assert (Fmt : 0 <= fmt <= 3).
  { unfold fmt. pose proof HT as (_ & _ & _ & T4 & _). destruct (c_format c) as [x|], (a_point_format o) as [y|]; cbn [both or_else] in *; try tauto; lia. }
  assert (SB : schema_bytes s = std_length fmt) by exact (std_layout_bytes k s fmt IS Fmt).
  pose proof (std_length_small fmt) as SL.
  assert (RLe : reclen_after F c = std_length fmt).
  { unfold reclen_after, fmt. destruct (c_format c); cbn [or_else option_map]; [reflexivity|exact HL]. }
  assert (GL : get_record_length h2 = std_length fmt) by (change (get_record_length h2) with (schema_bytes s mod 2 ^ 16); rewrite SB; apply Z.mod_small; lia).
  assert (GF : get_format h2 = fmt) by exact FS.
  assert (Cu2 : is_custom (h_schema h2) = false) by exact (sinv_plain k s _ IS (std_req fmt)).
  assert (Vm : h_vmin h2 = minor_after F c).
  { change (h_vmin h2) with (or_else (c_minor c) (h_vmin h)). unfold minor_after. f_equal. exact (f_equal ph_vmin P). }
  assert (Vm3 : 0 <= minor_after F c <= 3).
  { unfold minor_after. pose proof HT as (_ & _ & T3 & _). destruct (c_minor c) as [m|], (a_file_format o) as [f|]; cbn [both or_else] in *; try (cbn [both or_else] in *; lia); try tauto.
    destruct T3 as (b & Hb & M & _). destruct (numeral_chars b m Hb) as (_ & Pm & _). lia. }
  assert (ACRS : filter is_crs (added c) = [] /\ filter (fun v => negb (is_crs v) && negb (has_id "laszip encoded" 22204 v) && negb false) (added c) = filter (fun v => negb (is_crs v)) (added c)).
  { clear - CV. induction CV as [|v l (A & B & _) _ (IH1 & IH2)]; [split; reflexivity|]. cbn [filter]. rewrite A, B. cbn [negb andb]. split; [exact IH1|]. apply (f_equal (cons v)). exact IH2. }
  assert (WV : written_vlrs (t_sv t) h2 = geo_last (vlrs_after F c)).
  { unfold written_vlrs. rewrite Cu2, app_nil_r. change (h_vlrs h2) with (h_vlrs h ++ added c). change (h_srs h2) with (h_srs h). rewrite Ssrs, Hv.
    unfold geo_last, vlrs_after. rewrite !filter_app. destruct ACRS as (A1 & A2). cbn [andb]. rewrite A1, A2, app_nil_r. f_equal. f_equal.
    rewrite Forall_forall in HZ. apply filter_ext_in. intros v Hin. rewrite (HZ v Hin). now destruct (is_crs v). }
  destruct (file_vlrs_facts F HF) as (V1 & V2 & V3).
  assert (VO : Forall (fun v => vlr_wf v /\ v_size v = Z.of_nat (length (v_data v))) (vlrs_after F c)).
  { unfold vlrs_after. apply Forall_app. split.
    - pose proof (file_vlrs_wf F HF) as WF. rewrite Forall_forall in *. intros v Hin. split; [now apply WF|now apply V3].
    - unfold added. pose proof HT as (_ & _ & _ & _ & _ & T6 & _). destruct (c_vlr c) as [v|], (a_add_vlr o) as [l|]; cbn [both] in T6; try tauto; [|constructor].
      constructor; [apply (the_vlr_wf atof readraw v l T6)|constructor]. }
  assert (VO2 : Forall (fun v => vlr_wf v /\ v_size v = Z.of_nat (length (v_data v))) (geo_last (vlrs_after F c))).
  { rewrite Forall_forall in *. intros v Hin. apply VO. exact (proj1 (geo_last_in _ _) Hin). }
  assert (HW2 : header_wf h2) by exact (after_wf atof readraw t c o h s n HT HW Un).
  assert (VS : vlrs_size (vlrs_after F c) = vlrs_size (file_vlrs F) + vlrs_size (added c)) by apply Rewrite_Proofs.vlrs_size_app.
  pose proof (vlrs_size_nonneg (file_vlrs F)) as VN. pose proof (vlrs_size_nonneg (added c)) as VA.
  assert (VA54 : c_vlr c <> None -> 54 <= vlrs_size (added c)).
  { unfold added. destruct (c_vlr c) as [v|]; [|congruence]. intros _. unfold vlrs_size. cbn [fold_right the_vlr v_size]. lia. }
  assert (VA0 : c_vlr c = None -> vlrs_size (added c) = 0) by (unfold added; intros ->; reflexivity).
  assert (FR : first_record (t_sv t) h2 = start_after F c).
  { unfold first_record, start_after. cbv zeta. rewrite WV, geo_last_size, Vm. change (h_hsize h2) with (h_hsize h). change (h_doff h2) with (h_doff h). rewrite Hh, Hd. reflexivity. }
  split.
  { unfold start_after in CB. cbv zeta in CB. unfold gap in *. 
    assert (CASE : (gap F <= 0 \/ c_vlr c <> None) \/ (0 < gap F /\ c_vlr c = None)).
    { destruct (c_vlr c); [left; right; discriminate|]. destruct (Z.le_gt_cases (gap F) 0); [left; left; assumption|right; split; [assumption|reflexivity]]. }
    unfold gap in CASE. unfold f_doff in *.
    destruct CASE as [CA|(GP & CN)].
    - left. unfold fresh_ok. cbv zeta. rewrite WV, geo_last_size. change (h_hsize h2) with (h_hsize h). change (h_doff h2) with (h_doff h). change (h_pad h2) with (h_pad h). rewrite Hh, Hd.
      split; [exact HW2|]. split; [exact PC|]. split; [exact Scrs|]. split; [rewrite Cu2; discriminate|]. split; [exact VO2|]. split; [exact H94|].
      split; [destruct (minor_after F c =? 0); lia|].
      split; [split; [lia|destruct CA as [CA|CA]; [lia|specialize (VA54 CA); lia]]|].
      intros X. rewrite Hp; destruct CA as [CA|CA]; try lia; specialize (VA54 CA); lia.
    - right. exists (u_at F 96 4 - Z.of_nat (file_vlrs_end F)). unfold gap_ok. cbv zeta. rewrite WV, geo_last_size. change (h_hsize h2) with (h_hsize h). change (h_doff h2) with (h_doff h). change (h_pad h2) with (h_pad h). rewrite Hh, Hd, Vm.
      rewrite VS, (VA0 CN) in *.
      split; [|split; [lia|]].
      + split; [exact HW2|]. split; [exact PC|]. split; [exact Scrs|]. split; [exact Cu2|]. split; [exact VO2|]. split; [exact H94|]. split; [lia|]. split; [apply Hp; lia|]. split; [lia|]. exact Hd2.
      + destruct (Z.eq_dec (minor_after F c) 0) as [M0|M0]; [|left; exact M0]. right. destruct (C0 M0) as [X|X]; [lia|congruence]. }
  split; [exact Cu2|]. split.
  { unfold las_header. split; [rewrite <- Hsig; exact (f_equal ph_sig P)|]. split; [rewrite <- Hmaj; exact (f_equal ph_vmaj P)|]. rewrite Vm, GF, GL. lia. }
  split.
  { unfold no_schema_written. rewrite WV. apply Forall_forall. intros v Hin. apply (proj1 (geo_last_in _ _)) in Hin. unfold vlrs_after in Hin. apply in_app_or in Hin. destruct Hin as [Hin|Hin].
    - unfold no_schema_vlr in HN. rewrite Forall_forall in HN. now apply HN.
    - rewrite Forall_forall in CV. now apply CV. }
  assert (FIN : finite3 (h_scale h) /\ finite3 (h_offset h)).
  { pose proof (f_equal ph_scale P) as X1. pose proof (f_equal ph_offset P) as X2. cbn [ph_scale ph_offset pub_of_file pub_of_header] in X1, X2. unfold bits3 in X1, X2. injection X1 as Y1 Y2 Y3. injection X2 as Y4 Y5 Y6.
    unfold finite_scaling in FSc. unfold finite3.
    assert (B : forall x b, f64_bits x = b -> x = f64_of_bits b) by (intros x b <-; symmetry; apply f64_of_bits_bits).
    apply B in Y1, Y2, Y3, Y4, Y5, Y6. rewrite Y1, Y2, Y3, Y4, Y5, Y6.
    pose proof (Forall_inv FSc) as Z1. apply Forall_inv_tail in FSc. pose proof (Forall_inv FSc) as Z2. apply Forall_inv_tail in FSc. pose proof (Forall_inv FSc) as Z3. apply Forall_inv_tail in FSc.
    pose proof (Forall_inv FSc) as Z4. apply Forall_inv_tail in FSc. pose proof (Forall_inv FSc) as Z5. apply Forall_inv_tail in FSc. pose proof (Forall_inv FSc) as Z6.
    cbv beta in *. auto 10. }
  split; [change (h_scale h2) with (or_else (c_scale c) (h_scale h)); destruct (c_scale c); [exact CS|apply FIN]|].
  split; [change (h_offset h2) with (or_else (c_offset c) (h_offset h)); destruct (c_offset c); [exact CO|apply FIN]|].
  split; [now rewrite GL, GF|]. split; [exact FR|]. split; [now rewrite RLe|]. split; [exact WV|].
  assert (PE : pub_of_header h2 = with_vlrs (changed c (pub_of_header h)) n).
  { apply (pub_after atof readraw t c o h s n HT).
    - rewrite FS. unfold fmt. f_equal. symmetry. exact PF.
    - rewrite SB, Z.mod_small by lia. rewrite <- RLe. unfold reclen_after. f_equal. symmetry. exact (shows_reclen F h Sh). }
  rewrite PE, P. reflexivity.
Qed.

Lemma edit_part t F c o : real_tool t -> typed_as atof readraw t c o -> changeable F c ->
  exists r h2, reader_open (t_xml t) (t_doy t) (t_year t) F = Ok r /\ shows_file F (r_hdr r) /\ edit_header atof readraw t o (r_hdr r) = Ok h2 /\
  forall ds, recs_ok F ds -> exists G q G', write_file (t_sv t) h2 (points_of (r_hdr r) ds) = Ok G /\
    cs_feed cs_new (points_of (r_hdr r) ds) = Ok q /\ repair_file t q G = Ok G' /\ edited F c (r_hdr r) ds G'.
Proof.
  intros TT HT (HC & CL). pose proof HC as ((HSt & HG & Hg1 & HSS) & CO & CS & CV & CB & C0). pose proof HSt as (HA & HP). pose proof HA as (HF & HN & FSc & HCm).
  destruct (plain_header (t_xml t) (t_doy t) (t_year t) F HP) as (r & E & Sh & HW & Hv & Hh & Hd & _ & _ & Hp).
  pose proof HP as (_ & _ & HL & _). pose proof Sh as (P & Pg & PC & PB & Psr & PI & PF).
  assert (PI' : sinv 8 (h_schema (r_hdr r)) (std_fields (u_at F 104 1))).
  { unfold layout_of, extra_fields in PI. unfold f_reclen in HL. rewrite <- HL, Z.eqb_refl, app_nil_r in PI. exact PI. }
  destruct (edit_ok atof readraw t c o (r_hdr r) (u_at F 104 1) HT PI' PF) as (s & n & EE & Un & FS & IS); [apply HW|].
  exists r, (after c (r_hdr r) s n). split; [exact E|]. split; [exact Sh|]. split; [exact EE|]. intros ds HD.
  set (h := r_hdr r) in *.
  destruct (after_facts t F c o h s n HT HC Sh HW Hv Hh Hd Hp Un FS IS) as (A1 & A2 & A3 & A4 & A5 & A6 & A7 & A8 & A9 & A10 & A11). cbv zeta in *.
  set (h2 := after c h s n) in *. set (ps := points_of h ds).
  assert (LP : length ps = length ds) by apply points_len.
  assert (PF' : Forall (fun p => point_fits (get_record_length h2) p /\ bytes_ok (p_data p)) ps).
  { unfold ps, points_of. apply Forall_map. destruct HD as (D & _). eapply Forall_impl; [|exact D]. intros d (B & L). cbn [p_data]. split; [|exact B]. unfold point_fits. cbn [p_data].
    rewrite A9. split; [lia|]. intros ->. cbn [List.length] in L. destruct HCm as (C & _). lia. }
  destruct (session_file (t_sv t) h2 ps A1 A2 A3 A4 A5 A6 A7) as (G & EW & PG & GU & V & ST & GA & RC); [rewrite A8; exact CB|exact PF'|rewrite LP; apply HD|].
  rewrite LP, A8, A10, geo_last_length, A11 in PG. fold (header_after F c (Z.of_nat (length ds))) in PG. rewrite A10 in V.
  assert (NG : f_npts G = Z.of_nat (length ds)) by (pose proof (f_equal ph_npts PG) as X; rewrite stored_npts in X; exact X).
  assert (RG : records_from G 0 = map (firstn (Z.to_nat (reclen_after F c))) ds).
  { unfold records_from. rewrite NG, Z.sub_0_r, Nat2Z.id. rewrite <- (map_length (firstn (Z.to_nat (reclen_after F c))) ds). apply seq_records.
    intros k d Hk. rewrite nth_error_map in Hk. destruct (nth_error ds k) as [d0|] eqn:ED; cbn [option_map] in Hk; [|discriminate]. injection Hk as <-.
    assert (NP : nth_error ps k = Some (mkPoint d0 h)) by (unfold ps, points_of; now rewrite (map_nth_error _ _ _ ED)).
    rewrite (RC _ _ NP). unfold record_of. cbn [p_data]. now rewrite A9. }
  pose proof (points_header F h ds HP Sh HD) as FO. fold ps in FO.
  destruct (cinv_feed h ps cs_new [] (cinv_new h) FO) as (q & EQ & IQ). cbn [app] in IQ. exists G, q.
  assert (GUh : h_guid h2 = slice F 8 16) by exact Pg.
  assert (LF : length (slice F 8 16) = 16%nat).
  { unfold slice. rewrite firstn_length, skipn_length. destruct HF as (_ & HLn & _). lia. }
  assert (GS : forall G', slice G' 8 16 = guid_swap (slice G 8 16) -> slice G' 8 16 = slice F 8 16) by (intros G' ->; rewrite GU, GUh; now apply guid_swap_swap).
  assert (CD : ds = [] \/ ds <> []) by (destruct ds; [left; reflexivity|right; discriminate]). destruct CD as [D0|Dne].
  - destruct (repair_empty t q G ST) as (G' & ER & PR & GR & VR & SR & GaR & LR); [rewrite NG, D0; reflexivity|].
    exists G'. split; [exact EW|]. split; [exact EQ|]. split; [exact ER|]. split; [exact SR|]. split; [|split; [now rewrite VR|split; [now apply GS|split]]].
    + assert (N' : f_npts G' = 0).
      { pose proof (f_equal ph_npts PR) as X. rewrite stored_npts in X. rewrite D0 in NG. exact (eq_trans X NG). }
      unfold records_from. rewrite N', D0. reflexivity.
    + intros _. rewrite PR, PG, D0, lossy_stored. reflexivity.
    + intros X. contradiction.
  - destruct (q_mm q) as [[mn mx]|] eqn:EM.
    2:{ exfalso. destruct IQ as (_ & _ & _ & M). rewrite EM in M. apply (f_equal (@List.length _)) in M. rewrite LP in M. apply length_zero_iff_nil in M. contradiction. }
    destruct (corners h q ps mn mx (header_sane F h HF HSS Sh) IQ FO EM) as (x0 & y0 & z0 & x1 & y1 & z1 & T0 & T1 & BO).
    rewrite <- TT in T0, T1.
    destruct (repair_points t h q ps G mn mx x0 y0 z0 x1 y1 z1 ST) as (G' & ER & PR & GR & VR & SR & GaR & LR & RR); auto.
    { rewrite NG. destruct ds; [contradiction|cbn [List.length]; lia]. }
    exists G'. split; [exact EW|]. split; [exact EQ|]. split; [exact ER|]. split; [exact SR|]. split; [|split; [now rewrite VR|split; [now apply GS|split; [intros X; contradiction|]]]].
    + assert (N' : f_npts G' = f_npts G).
      { pose proof (f_equal ph_npts PR) as X. rewrite stored_npts in X. exact X. }
      rewrite <- RG. unfold records_from. rewrite N'. apply map_ext. intros i. apply RR. lia.
    + intros _. destruct (five_ok h ps FO) as (rns & VR' & FR); [rewrite LP; apply HD|].
      exists (bits3 (x1, y1, z1)), (bits3 (x0, y0, z0)), rns. split; [exact BO|]. split; [exact VR'|].
      rewrite PR, FR, PG, stored_returns, lossy_stored. reflexivity.
Qed.

Theorem edit_one t F c o keep fuel : real_tool t -> typed_as atof readraw t c o -> changeable F c -> filterable F keep -> (Z.to_nat (f_npts F) < fuel)%nat ->
  exists r G, reader_open (t_xml t) (t_doy t) (t_year t) F = Ok r /\
    las2las_edit atof readraw t o 0 0 (the_filter keep) tt fuel F = Ok [G] /\ edited F c (r_hdr r) (delivered F (r_hdr r) keep) G.
Proof.
  intros TT HT HC HK Hf. destruct (edit_part t F c o TT HT HC) as (r & h2 & E & Sh & EE & P). pose proof HC as (((HS & _) & _) & _).
  destruct (delivered_ok t F keep fuel HS HK Hf) as (r' & r1 & E' & RA & I1). rewrite E in E'. apply Writer_Append.Ok_inj in E'. subst r'.
  set (h := r_hdr r) in *. set (ds := delivered F h keep) in *.
  destruct (P ds (delivered_recs F h keep HS)) as (G & q & G' & EW & EQ & ER & FI). exists r, G'. split; [exact E|]. split; [|exact FI].
  unfold las2las_edit. rewrite E. cbn [obind]. fold h. rewrite EE. cbn [obind].
  destruct (session_split _ _ _ _ EW) as (w0 & w & E0 & EP & EC). rewrite E0. cbn [obind].
  rewrite (loop_feeds t h2 0 0 (the_filter keep) fuel r tt _ ds r1 tt RA). fold h. change (map (fun d => mkPoint d h) ds) with (points_of h ds).
  destruct (feed_one t h2 (points_of h ds) (mkLoop w0 cs_new (split_budget 0) 0 []) q w EQ EP) as (b & n & EF). rewrite EF. cbn [obind l_w l_cs l_done].
  rewrite EC. cbn [obind]. change (0 =? 0) with true. cbn [andb].
  pose proof HS as ((HF & HN & FS & HCm) & _).
  destruct (reset_ok (t_xml t) F r1 HF HN FS I1) as (r2 & -> & _). cbn [obind]. rewrite ER. reflexivity.
Qed.
End Part.

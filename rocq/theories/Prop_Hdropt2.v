(** C74, continued: options of las2las that do not do what they say. *)
From Coq Require Import ZArith List Bool Lia String.
From Coq Require Import ZifyBool ZifyNat.
Import ListNotations.
From Flocq Require Import Core BinarySingleNaN Binary Bits.
From Verif Require Import Outcome Bytes Float64 Float64_Proofs CStr Vlr_Model Schema_Model Schema_Spec Schema_Api Schema_Proofs Header_Model Point_Model Point_Spec Point_Api Point_Proofs Coord_Api Stream_Model Stream_Proofs
  IO_Spec Reader_Proofs Reader_Vlrs Reader_Model Reader_Spec Reader_Schema Reader_Api Reader_Open Reader_Hist Reader_Filter Writer_Model Writer_Api Writer_Proofs Writer_File
  Writer_Append IO_Samples Prop_Reader Iter_Spec Iter_Model Iter_Proofs Rewrite_Proofs Rewrite_Gap Rewrite_Read Prop_Rewrite Summary_Model Summary_Spec Summary_Proofs Prop_Summary Text_Model Text_Proofs
  Las2las_Spec Las2las_Copy Las2las_Model Las2las_Summary Las2las_File Las2las_Loop Las2las_Points Las2las_Main Las2las_Split Prop_Las2las
  Cli_Model Cli_Spec Cli_Proofs Hdropt_Model Hdropt_Spec Hdropt_Write Hdropt_Proofs Hdropt_Main Prop_Hdropt.
Local Open Scope Z_scope.
Local Notation length := List.length (only parsing).

(** Command lines with one of the options. *)
Definition no_options : hopts := mkHopts None None None None None None false None None None None.
Definition only_delete (l : list text) : hopts := mkHopts None None None None None None false (Some l) None None None.
Definition only_add (l : list text) : hopts := mkHopts None None None None None None false None (Some l) None None.
Definition only_pad (s : text) : hopts := mkHopts None None None None (Some s) None false None None None None.
Definition only_format (k : Z) : hopts := mkHopts None None None (Some k) None None false None None None None.
Definition only_version (s : text) : hopts := mkHopts None None (Some s) None None None false None None None None.
Definition only_creation (l : list text) : hopts := mkHopts None None None None None (Some l) false None None None None.

(** ** Runs that are undefined *)
(** --delete-vlr of a VLR the file has (other than one of the coordinate system). *)
Theorem C74_delete_refuted : forall atof readraw t F name id v mb sp keep fuel, translatable F -> 0 <= gap F ->
  In v (file_vlrs F) -> name = until_nul (v_user v) -> numeral id (v_id v) -> is_crs v = false ->
  las2las_edit atof readraw t (only_delete [name; id]) mb sp (the_filter keep) tt fuel F = UB UBOutOfBounds.
Proof.
  intros atof readraw t F name id v mb sp keep fuel (HS & HG & Hg1 & SS) G0 Hin Hname Hid Hc. pose proof HS as (HA & HP). pose proof HA as (HF & HN & _).
  destruct (plain_header (t_xml t) (t_doy t) (t_year t) F HP) as (r & E & Sh & HW & Hv & Hh & Hd & _ & _ & Hpd).
  destruct (plain_written (t_sv t) F (r_hdr r) HP Sh Hv) as (Cu & _ & Scrs & Ssrs). pose proof Sh as (P & Pg & PC & _).
  unfold las2las_edit. rewrite E. cbn [obind]. set (h := r_hdr r) in *.
  pose proof (file_vlrs_wf F HF) as WF. pose proof WF as WF'. rewrite Forall_forall in WF'. pose proof (WF' v Hin) as (_ & _ & _ & _ & _ & _ & Uid & _). unfold in_unsigned in Uid.
  assert (EH : edit_header atof readraw t (only_delete [name; id]) h = Ok (delete_vlrs h name (v_id v))).
  { unfold edit_header, only_delete. cbn [a_offset a_scale a_file_format a_point_format a_pad a_creation a_add_schema a_delete_vlr a_add_vlr a_software a_system when_given obind].
    unfold edit_delete. cbn [List.length Nat.odd Nat.even negb]. cbn [delete_pairs]. unfold vlr_id. rewrite (atoi_ok id _ Hid) by lia. cbn [obind].
    destruct (Z.ltb_spec (v_id v) 0); [lia|]. destruct (Z.ltb_spec 65535 (v_id v)); [lia|]. reflexivity. }
  rewrite EH. cbn [obind]. set (h2 := delete_vlrs h name (v_id v)).
  destruct (file_vlrs_facts F HF) as (V1 & V2 & V3). pose proof HP as (_ & _ & _ & HZ & H94 & Hd2 & _).
  set (keepv := fun v0 => negb (same_vlr name (v_id v) v0)).
  assert (SM : forall v0, same_vlr name (v_id v) v0 = true -> is_crs v0 = false).
  { intros v0 S0. unfold same_vlr in S0. apply andb_true_iff in S0. destruct S0 as (S1 & S2). apply zlist_eqb_spec in S1. apply Z.eqb_eq in S2.
    unfold vlr_get_user in S1. cbn [andb] in S1. unfold is_crs, has_id in *. rewrite S1, S2, Hname. exact Hc. }
  assert (WV : written_vlrs (t_sv t) h2 = filter (fun v0 => negb (is_crs v0)) (filter keepv (file_vlrs F)) ++ filter is_crs (filter keepv (file_vlrs F))).
  { unfold written_vlrs. change (h_schema h2) with (h_schema h). rewrite Cu, app_nil_r. change (h_srs h2) with (h_srs h). change (h_vlrs h2) with (filter keepv (h_vlrs h)). rewrite Ssrs, Hv. f_equal.
    - apply filter_ext_in. intros v0 Hv0. apply filter_In in Hv0. rewrite Forall_forall in HZ. rewrite (HZ v0 (proj1 Hv0)). now destruct (is_crs v0).
    - clear - SM. induction (file_vlrs F) as [|v0 l IH]; [reflexivity|]. cbn [filter]. unfold keepv at 1. destruct (same_vlr name (v_id v) v0) eqn:S0; cbn [negb filter]; [rewrite (SM _ S0); exact IH|]. destruct (is_crs v0); [now rewrite IH|exact IH]. }
  assert (SZ : vlrs_size (written_vlrs (t_sv t) h2) = vlrs_size (filter keepv (file_vlrs F))) by (rewrite WV; apply (vlrs_size_split is_crs)).
  assert (LESS : vlrs_size (filter keepv (file_vlrs F)) + 54 <= vlrs_size (file_vlrs F)).
  { assert (MON : forall l, Forall vlr_wf l -> vlrs_size (filter keepv l) <= vlrs_size l /\ (In v l -> vlrs_size (filter keepv l) + 54 <= vlrs_size l)).
    { induction 1 as [|v0 l W0 _ (IH1 & IH2)]; [split; [unfold vlrs_size; cbn; lia|intros []]|]. destruct W0 as (_ & _ & _ & _ & _ & _ & _ & U). unfold in_unsigned in U.
      assert (K0 : v0 = v -> keepv v0 = false).
      { intros ->. unfold keepv, same_vlr, vlr_get_user. cbn [andb]. rewrite Hname, Z.eqb_refl. replace (zlist_eqb (until_nul (v_user v)) (until_nul (v_user v))) with true by (symmetry; now apply zlist_eqb_spec). reflexivity. }
      cbn [filter]. destruct (keepv v0) eqn:KE; unfold vlrs_size in *; cbn [fold_right] in *; (split; [lia|]); intros [I|I]; try (specialize (IH2 I); lia); try lia. }
    now apply (MON _ WF). }
  unfold gap in *. pose proof (vlrs_size_nonneg (filter keepv (file_vlrs F))).
  rewrite (wide_gap (t_sv t) h2); [reflexivity| | | | | | | | |].
  - unfold h2, delete_vlrs. apply wf_set_vlrs; [exact HW| |unfold in_unsigned; apply Z.mod_pos_bound; lia]. rewrite Hv. rewrite Forall_forall in *. intros x Hx. apply filter_In in Hx. now apply WF.
  - exact PC.
  - exact Scrs.
  - exact Cu.
  - rewrite WV. rewrite Forall_forall in *. intros x Hx. apply in_app_or in Hx. rewrite !filter_In in Hx. assert (In x (file_vlrs F)) by tauto. split; auto.
  - change (h_hsize h2) with (h_hsize h). rewrite Hh. exact H94.
  - change (h_doff h2) with (h_doff h). rewrite Hd. exact Hd2.
  - change (h_hsize h2) with (h_hsize h). change (h_doff h2) with (h_doff h). rewrite SZ, Hh, Hd. lia.
  - change (h_hsize h2) with (h_hsize h). change (h_doff h2) with (h_doff h). change (h_pad h2) with (h_pad h). rewrite SZ, Hh, Hd, Hpd by lia. lia.
Qed.
Print Assumptions C74_delete_refuted.

(** --pad-header with an offset that leaves more than two bytes after the VLRs. *)
Theorem C74_pad_refuted : forall atof readraw t F s n mb sp keep fuel, translatable F -> 0 <= gap F ->
  numeral s n -> Z.of_nat (file_vlrs_end F) + 2 < n -> n + 2 < 2 ^ 31 ->
  las2las_edit atof readraw t (only_pad s) mb sp (the_filter keep) tt fuel F = UB UBOutOfBounds.
Proof.
  intros atof readraw t F s n mb sp keep fuel (HS & HG & Hg1 & SS) G0 Hn Hb1 Hb2. pose proof HS as (HA & HP). pose proof HA as (HF & HN & _).
  destruct (plain_header (t_xml t) (t_doy t) (t_year t) F HP) as (r & E & Sh & HW & Hv & Hh & Hd & _ & _ & Hpd).
  destruct (plain_written (t_sv t) F (r_hdr r) HP Sh Hv) as (Cu & WV & Scrs & Ssrs). pose proof Sh as (P & Pg & PC & _).
  unfold las2las_edit. rewrite E. cbn [obind]. set (h := r_hdr r) in *.
  assert (EH : edit_header atof readraw t (only_pad s) h = Ok (set_data_offset h n)).
  { unfold edit_header, only_pad. cbn [a_offset a_scale a_file_format a_point_format a_pad a_creation a_add_schema a_delete_vlr a_add_vlr a_software a_system when_given obind].
    unfold edit_pad. rewrite (atoi_ok s n Hn) by lia. cbn [obind]. destruct (Z.eqb_spec n 0); [lia|]. reflexivity. }
  rewrite EH. cbn [obind]. set (h2 := set_data_offset h n).
  destruct (file_vlrs_facts F HF) as (V1 & V2 & V3). pose proof HP as (_ & _ & _ & HZ & H94 & Hd2 & _). pose proof (file_vlrs_wf F HF) as WF.
  assert (DO : h_doff h2 = n) by (change (h_doff h2) with (n mod 2 ^ 32); apply Z.mod_small; pose proof (vlrs_size_nonneg (file_vlrs F)); lia).
  unfold gap in *.
  assert (SZ : vlrs_size (written_vlrs (t_sv t) h2) = vlrs_size (file_vlrs F)) by (change (written_vlrs (t_sv t) h2) with (written_vlrs (t_sv t) h); rewrite WV; apply geo_last_size).
  rewrite (wide_gap (t_sv t) h2); [reflexivity| | | | | | | | |].
  - apply wf_set_doff, HW.
  - exact PC.
  - exact Scrs.
  - exact Cu.
  - change (written_vlrs (t_sv t) h2) with (written_vlrs (t_sv t) h). rewrite WV. rewrite Forall_forall in *. intros x Hx. apply (proj1 (geo_last_in _ _)) in Hx. split; auto.
  - change (h_hsize h2) with (h_hsize h). rewrite Hh. exact H94.
  - rewrite DO. exact Hb2.
  - rewrite SZ, DO. change (h_hsize h2) with (h_hsize h). rewrite Hh. lia.
  - rewrite SZ, DO. change (h_hsize h2) with (h_hsize h). change (h_pad h2) with (h_pad h). rewrite Hh, Hpd by lia. lia.
Qed.
Print Assumptions C74_pad_refuted.

(** --point-format with a longer record: the first point is read past its end. *)
Lemma pad_schema s h s' h' : write_pad_signature s h = Ok (s', h') -> h_schema h' = h_schema h.
Proof.
  unfold write_pad_signature. destruct (0 <? h_vmin h); [intros E; apply Writer_Append.Ok_inj, (f_equal snd) in E; cbn [snd] in E; now subst|].
  destruct (required_header_size h) as [req| |]; cbn [obind]; try discriminate. destruct (_ <? 2).
  - set (h1 := set_data_offset h (h_doff h + 2)). destruct (os_write _ _) as [s2| |]; cbn [obind]; try discriminate. destruct (os_write _ _) as [s3| |]; cbn [obind]; try discriminate.
    destruct (os_write _ _) as [s4| |]; cbn [obind]; try discriminate. intros E. apply Writer_Append.Ok_inj, (f_equal snd) in E. cbn [snd] in E. now subst h'.
  - cbn [obind]. destruct (os_write _ _) as [s3| |]; cbn [obind]; try discriminate. destruct (os_write _ _) as [s4| |]; cbn [obind]; try discriminate. intros E. apply Writer_Append.Ok_inj, (f_equal snd) in E. cbn [snd] in E. now subst h'.
Qed.
Lemma new_reclen sv h w : writable sv h -> writer_new sv (os_open []) h = Ok w -> get_record_length (w_hdr w) = get_record_length h.
Proof.
  intros [HF|(g & HG & G2 & _)] E.
  - rewrite (writer_new_fresh sv h HF) in E. apply Writer_Append.Ok_inj in E. subst w. reflexivity.
  - rewrite (writer_new_gap sv h g HG) in E. destruct (Z.ltb_spec 2 g); [lia|].
    destruct (write_pad_signature _ _) as [[s h']| |] eqn:WP; cbn [obind] in E; try discriminate. apply pad_schema in WP. apply Writer_Append.Ok_inj in E. subst w.
    unfold get_record_length. cbn [w_hdr]. rewrite WP. reflexivity.
Qed.
Lemma format_typed atof readraw t k : 0 <= k <= 3 -> typed_as atof readraw t (mkChange None None None (Some k) None None None None) (only_format k).
Proof. intros K. unfold typed_as, only_format. cbn. intuition lia. Qed.
Theorem C74_widen_refuted : forall atof readraw t F k mb sp keep fuel, translatable F -> 0 <= k <= 3 -> f_reclen F < std_length k -> filterable F keep ->
  (Z.to_nat (f_npts F) < fuel)%nat -> start_after F no_change + 4 < 2 ^ 31 -> 
  exists r, reader_open (t_xml t) (t_doy t) (t_year t) F = Ok r /\
    (delivered F (r_hdr r) keep <> [] -> las2las_edit atof readraw t (only_format k) mb sp (the_filter keep) tt fuel F = UB UBOutOfBounds).
Proof.
  intros atof readraw t F k mb sp keep fuel HTr K KL HK Hf SA. set (c := mkChange None None None (Some k) None None None None).
  pose proof (format_typed atof readraw t k K) as HT. fold c in HT.
  assert (HC : doable F c).
  { split; [exact HTr|]. split; [exact I|]. split; [exact I|]. split; [constructor|]. split; [exact SA|]. intros M. left. destruct HTr as (_ & _ & [V|V] & _); [|exact V].
    change (minor_after F c) with (u_at F 25 1) in M. contradiction. }
  pose proof HTr as (HSt & HG & Hg1 & HSS). pose proof HSt as (HA & HP). pose proof HA as (HF & HN & FSc & HCm).
  destruct (plain_header (t_xml t) (t_doy t) (t_year t) F HP) as (r & E & Sh & HW & Hv & Hh & Hd & _ & _ & Hp).
  pose proof HP as (_ & _ & HL & _). pose proof Sh as (P & Pg & PC & PB & Psr & PI & PF).
  assert (PI' : sinv 8 (h_schema (r_hdr r)) (std_fields (u_at F 104 1))).
  { unfold layout_of, extra_fields in PI. unfold f_reclen in HL. rewrite <- HL, Z.eqb_refl, app_nil_r in PI. exact PI. }
  destruct (edit_ok atof readraw t c _ (r_hdr r) (u_at F 104 1) HT PI' PF) as (s & n & EE & Un & FS & IS); [apply HW|].
  exists r. split; [exact E|]. intros NE.
  destruct (after_facts atof readraw t F c _ (r_hdr r) s n HT HC Sh HW Hv Hh Hd Hp Un FS IS) as (A1 & A2 & A3 & A4 & A5 & A6 & A7 & A8 & A9 & A10 & A11). cbv zeta in *.
  set (h := r_hdr r) in *. set (h2 := after c h s n) in *.
  destruct (session_file (t_sv t) h2 [] A1 A2 A3 A4 A5 A6 A7) as (G & EW & _); [rewrite A8; exact SA|constructor|cbn; lia|].
  destruct (session_split _ _ _ _ EW) as (w0 & w & E0 & EP & EC).
  unfold las2las_edit. rewrite E. cbn [obind]. fold h. rewrite EE. cbn [obind]. rewrite E0. cbn [obind].
  destruct (delivered_ok t F keep fuel HSt HK Hf) as (r' & r1 & E' & RA & I1). rewrite E in E'. apply Writer_Append.Ok_inj in E'. subst r'.
  rewrite (loop_feeds t h2 mb sp (the_filter keep) fuel r tt _ _ r1 tt RA). fold h.
  pose proof (delivered_recs F h keep HSt) as HD. pose proof (points_header F h _ HP Sh HD) as FO. fold h in NE.
  destruct (delivered F h keep) as [|d ds] eqn:DE; [contradiction|]. cbn [map feed]. unfold one_point.
  destruct (cinv_feed h (points_of h (d :: ds)) cs_new [] (cinv_new h) FO) as (q & EQ & _). cbn [points_of map cs_feed] in EQ.
  cbn [l_cs l_w]. destruct (cs_add cs_new (mkPoint d h)) as [q1| |]; try discriminate. cbn [obind].
  assert (RLw : get_record_length (w_hdr w0) = std_length k).
  { rewrite (new_reclen _ _ _ A1 E0), A9. reflexivity. }
  assert (WP : write_point w0 (mkPoint d h) = UB UBOutOfBounds).
  { destruct HD as (D & _). pose proof (Forall_inv D) as (_ & LD). unfold write_point. rewrite RLw. cbn [p_data]. destruct d as [|b d]; [reflexivity|].
    destruct (Nat.ltb_spec (length (b :: d)) (Z.to_nat (std_length k))); [reflexivity|lia]. }
  rewrite WP. reflexivity.
Qed.
Print Assumptions C74_widen_refuted.

(** ** Options that are undone or ignored *)
Lemma prepare_written sv h n l : Forall (fun v => is_crs v = true) (h_srs h) -> is_custom (h_schema h) = false ->
  filter (fun v => negb (is_crs v)) l = filter (fun v => negb (is_crs v)) (h_vlrs h) -> prepare_header sv (h_upd_vlrs h n l) = prepare_header sv h.
Proof.
  intros Hs Hc Hl. set (h2 := h_upd_vlrs h n l).
  assert (W : written_vlrs sv h2 = written_vlrs sv h).
  { unfold written_vlrs. change (h_schema h2) with (h_schema h). change (h_srs h2) with (h_srs h). change (h_vlrs h2) with l. rewrite Hc. f_equal. cbn [andb negb].
    assert (FF : forall x, filter (fun v => negb (is_crs v) && negb (has_id "laszip encoded" 22204 v) && true) x = filter (fun v => negb (has_id "laszip encoded" 22204 v)) (filter (fun v => negb (is_crs v)) x)).
    { induction x as [|v x IH]; [reflexivity|]. cbn [filter]. destruct (is_crs v); cbn [negb andb filter]; [exact IH|]. rewrite andb_true_r. destruct (has_id _ _ v); cbn [negb]; [exact IH|now rewrite IH]. }
    rewrite !FF. now rewrite Hl. }
  pose proof (prep_vlrs sv h Hs ltac:(congruence)) as P1. pose proof (prep_vlrs sv h2 Hs ltac:(change (h_schema h2) with (h_schema h); congruence)) as P2. cbn zeta in P1, P2.
  rewrite W in P2. change (h_upd_vlrs h2 ?a ?b) with (h_upd_vlrs h a b) in P2.
  unfold prepare_header.
  set (a1 := set_georeference (delete_vlrs h2 (str "liblas") 2112)) in *. set (a2 := if is_custom (h_schema a1) then _ else _) in *.
  set (b1 := set_georeference (delete_vlrs h (str "liblas") 2112)) in *. set (b2 := if is_custom (h_schema b1) then _ else _) in *.
  assert (C1 : h_comp a2 = h_comp h) by (change (h_comp a2) with (h_comp (delete_vlrs a2 (str "laszip encoded") 22204)); rewrite P2; reflexivity).
  assert (C2 : h_comp b2 = h_comp h) by (change (h_comp b2) with (h_comp (delete_vlrs b2 (str "laszip encoded") 22204)); rewrite P1; reflexivity).
  rewrite C1, C2. cbv zeta. rewrite P1, P2. reflexivity.
Qed.
Lemma new_written sv h n l : Forall (fun v => is_crs v = true) (h_srs h) -> is_custom (h_schema h) = false ->
  filter (fun v => negb (is_crs v)) l = filter (fun v => negb (is_crs v)) (h_vlrs h) -> writer_new sv (os_open []) (h_upd_vlrs h n l) = writer_new sv (os_open []) h.
Proof.
  intros Hs Hc Hl. pose proof (prepare_written sv h n l Hs Hc Hl) as EP. unfold writer_new, writer_write_header, write_header. cbn [w_os w_hdr w_count os_open].
  rewrite EP. reflexivity.
Qed.
Lemma one_point_same t h h2 mb sp l p : h_schema h2 = h_schema h -> writer_new (t_sv t) (os_open []) h2 = writer_new (t_sv t) (os_open []) h -> one_point t h2 mb sp l p = one_point t h mb sp l p.
Proof. intros S W. unfold one_point, next_file. rewrite S, W. reflexivity. Qed.
Lemma loop_same {FS} t h h2 mb sp (flt : option (FS -> point -> bool * FS)) fuel : h_schema h2 = h_schema h -> writer_new (t_sv t) (os_open []) h2 = writer_new (t_sv t) (os_open []) h ->
  forall r fs l, point_loop t h2 mb sp flt fuel r fs l = point_loop t h mb sp flt fuel r fs l.
Proof.
  intros S W. induction fuel as [|fuel IH]; intros r fs l; cbn [point_loop]; [reflexivity|]. destruct (reader_next _ _ r fs) as [[r1 fs1] [[|]| |]]; try reflexivity.
  rewrite (one_point_same t h h2 mb sp l _ S W). destruct (one_point t h mb sp l (r_point r1)); cbn [obind]; [apply IH|reflexivity|reflexivity].
Qed.
Lemma same_run {FS} atof readraw t o F mb sp (flt : option (FS -> point -> bool * FS)) fs fuel r h2 :
  reader_open (t_xml t) (t_doy t) (t_year t) F = Ok r -> edit_header atof readraw t o (r_hdr r) = Ok h2 -> h_schema h2 = h_schema (r_hdr r) ->
  writer_new (t_sv t) (os_open []) h2 = writer_new (t_sv t) (os_open []) (r_hdr r) ->
  las2las_edit atof readraw t o mb sp flt fs fuel F = las2las t mb sp flt fs fuel F.
Proof.
  intros E EH S W. unfold las2las_edit, las2las. rewrite E. cbn [obind]. rewrite EH. cbn [obind]. 
  pose proof (loop_same t (r_hdr r) h2 mb sp flt fuel S W) as LS. rewrite W. destruct (writer_new _ _ (r_hdr r)) as [w| |]; cbn [obind]; try reflexivity. rewrite LS. reflexivity.
Qed.

(** Coordinate-system VLRs cannot be deleted (they come back from the spatial
    reference) ... *)
Theorem C74_delete_crs_refuted : forall FS atof readraw t F name id n mb sp (flt : option (FS -> point -> bool * FS)) fs fuel, standard F ->
  In (name, n) [(str "LASF_Projection", 34735); (str "LASF_Projection", 34736); (str "LASF_Projection", 34737); (str "liblas", 2112)] -> numeral id n ->
  las2las_edit atof readraw t (only_delete [name; id]) mb sp flt fs fuel F = las2las t mb sp flt fs fuel F.
Proof.
  intros FS atof readraw t F name id n mb sp flt fs fuel HS Hin Hid. pose proof HS as (HA & HP).
  destruct (plain_header (t_xml t) (t_doy t) (t_year t) F HP) as (r & E & Sh & HW & Hv & _).
  destruct (plain_written (t_sv t) F (r_hdr r) HP Sh Hv) as (Cu & _ & Scrs & _).
  assert (N : 0 <= n <= 65535) by (cbn [In] in Hin; decompose [or] Hin; try contradiction; match goal with H : (_, _) = _ |- _ => apply (f_equal snd) in H; cbn [snd] in H; lia end).
  assert (CRS : forall v, same_vlr name n v = true -> is_crs v = true).
  { intros v S0. unfold same_vlr, vlr_get_user in S0. cbn [andb] in S0. unfold is_crs, has_id. cbn [In] in Hin.
    decompose [or] Hin; try contradiction; match goal with H : (_, _) = _ |- _ => pose proof (f_equal fst H) as N1; pose proof (f_equal snd H) as N2; cbn [fst snd] in N1, N2; subst name; subst n end; rewrite S0; rewrite ?orb_true_r; reflexivity. }
  apply (same_run atof readraw t _ F mb sp flt fs fuel r (delete_vlrs (r_hdr r) name n) E).
  - unfold edit_header, only_delete. cbn [a_offset a_scale a_file_format a_point_format a_pad a_creation a_add_schema a_delete_vlr a_add_vlr a_software a_system when_given obind].
    unfold edit_delete. cbn [List.length Nat.odd Nat.even negb]. cbn [delete_pairs]. unfold vlr_id. rewrite (atoi_ok id _ Hid) by lia. cbn [obind].
    destruct (Z.ltb_spec n 0); [lia|]. destruct (Z.ltb_spec 65535 n); [lia|]. reflexivity.
  - reflexivity.
  - unfold delete_vlrs. apply new_written; [exact Scrs|exact Cu|]. clear - CRS. induction (h_vlrs (r_hdr r)) as [|v l IH]; [reflexivity|]. cbn [filter].
    destruct (same_vlr name n v) eqn:S0; cbn [negb filter]; [rewrite (CRS v S0); exact IH|]. destruct (is_crs v); cbn [negb]; [exact IH|now rewrite IH].
Qed.
Print Assumptions C74_delete_crs_refuted.

(** ... nor added. *)
Theorem C74_add_crs_refuted : forall FS atof readraw t F v l mb sp (flt : option (FS -> point -> bool * FS)) fs fuel, standard F ->
  vlr_text readraw v l -> is_crs (the_vlr v) = true ->
  las2las_edit atof readraw t (only_add l) mb sp flt fs fuel F = las2las t mb sp flt fs fuel F.
Proof.
  intros FS atof readraw t F v l mb sp flt fs fuel HS HV Hc. pose proof HS as (HA & HP).
  destruct (plain_header (t_xml t) (t_doy t) (t_year t) F HP) as (r & E & Sh & HW & Hv & _).
  destruct (plain_written (t_sv t) F (r_hdr r) HP Sh Hv) as (Cu & _ & Scrs & _).
  set (c := mkChange None None None None None (Some v) None None).
  destruct (edit_add_ok atof readraw c (Some l) (r_hdr r) HV) as (n & EA & _); [apply HW|].
  apply (same_run atof readraw t _ F mb sp flt fs fuel r (h_upd_vlrs (r_hdr r) n (h_vlrs (r_hdr r) ++ added c)) E).
  - unfold edit_header, only_add. cbn [a_offset a_scale a_file_format a_point_format a_pad a_creation a_add_schema a_delete_vlr a_add_vlr a_software a_system].
    change (when_given None ?f ?h) with (Ok h). cbn [obind]. rewrite EA. reflexivity.
  - reflexivity.
  - apply new_written; [exact Scrs|exact Cu|]. rewrite filter_app. cbn [added c c_vlr filter]. rewrite Hc. cbn [negb]. apply app_nil_r.
Qed.
Print Assumptions C74_add_crs_refuted.

(** The part of --file-format before the dot is not looked at; a single argument of
    --file-creation that is not "now" means day 0 of the year 0. *)
Theorem C74_texts_refuted : forall FS atof readraw t F mb sp (flt : option (FS -> point -> bool * FS)) fs fuel,
  (forall a x b m, numeral a x -> x < 2 ^ 31 -> numeral b m -> m <= 2 ->
     las2las_edit atof readraw t (only_version (a ++ str "." ++ b)) mb sp flt fs fuel F = las2las_edit atof readraw t (only_version (str "1." ++ b)) mb sp flt fs fuel F) /\
  (forall w, w <> str "now" ->
     las2las_edit atof readraw t (only_creation [w]) mb sp flt fs fuel F = las2las_edit atof readraw t (only_creation [str "0"; str "0"]) mb sp flt fs fuel F).
Proof.
  intros FS atof readraw t F mb sp flt fs fuel. split.
  - intros a x b m Ha X Hb M. assert (EE : forall h, edit_header atof readraw t (only_version (a ++ str "." ++ b)) h = edit_header atof readraw t (only_version (str "1." ++ b)) h).
    { intros h. unfold edit_header, only_version. cbn [a_offset a_scale a_file_format a_point_format a_pad a_creation a_add_schema a_delete_vlr a_add_vlr a_software a_system when_given obind].
      destruct (numeral_chars a x Ha) as (NA & PA & CA). destruct (numeral_chars b m Hb) as (NB & PB & CB).
      assert (DG : forall w, Forall (fun c => 48 <= c <= 57) w -> Forall (fun c => existsb (Z.eqb c) [46] = false) w).
      { intros w Hw. eapply Forall_impl; [|exact Hw]. intros c Hx. cbv beta in Hx. cbn [existsb]. destruct (Z.eqb_spec c 46); [lia|reflexivity]. }
      unfold edit_file_format. change (str "1." ++ b) with ([49] ++ [46] ++ b). change (str "." ++ b) with ([46] ++ b).
      rewrite (tokens_sep [46] a) by (auto; reflexivity). rewrite (tokens_sep [46] [49]); [|discriminate|repeat constructor|reflexivity]. rewrite (tokens_one [46] b) by auto.
      cbn [atois]. rewrite (atoi_ok a x Ha X). change (atoi [49]) with (Ok 1). cbn [obind]. rewrite (atoi_ok b m Hb) by lia. cbn [obind]. reflexivity. }
    unfold las2las_edit. destruct (reader_open _ _ _ F) as [r| |]; cbn [obind]; [|reflexivity|reflexivity]. rewrite EE. reflexivity.
  - intros w Hw. assert (EE : forall h, edit_header atof readraw t (only_creation [w]) h = edit_header atof readraw t (only_creation [str "0"; str "0"]) h).
    { intros h. unfold edit_header, only_creation. cbn [a_offset a_scale a_file_format a_point_format a_pad a_creation a_add_schema a_delete_vlr a_add_vlr a_software a_system when_given obind].
      unfold edit_creation. cbn [obind]. replace (zlist_eqb w (str "now")) with false; [reflexivity|].
      destruct (zlist_eqb w (str "now")) eqn:Z0; [|reflexivity]. apply zlist_eqb_spec in Z0. contradiction. }
    unfold las2las_edit. destruct (reader_open _ _ _ F) as [r| |]; cbn [obind]; [|reflexivity|reflexivity]. rewrite EE. reflexivity.
Qed.
Print Assumptions C74_texts_refuted.

(** "min" is accepted in an offset, and dropped: the rest is not three numbers. *)
Theorem C74_min_refuted : forall atof readraw t h o a b s1 s2, word a -> word b -> In s1 separators -> In s2 separators ->
  a_offset o = Some (str "min" ++ [s1] ++ a ++ [s2] ++ b) -> edit_header atof readraw t o h = Throw ERuntime.
Proof.
  intros atof readraw t h o a b s1 s2 (NA & MA & A) (NB & MB & B) S1 S2 E. unfold edit_header. rewrite E. cbn [when_given].
  assert (SEP : forall w, Forall (fun c => ~ In c separators) w -> Forall (fun c => existsb (Z.eqb c) separators = false) w).
  { intros w Hw. eapply Forall_impl; [|exact Hw]. intros x Hx. destruct (existsb _ _) eqn:EX; [|reflexivity]. exfalso. apply existsb_exists in EX. destruct EX as (y & Hy & EX). apply Z.eqb_eq in EX. subst y. contradiction. }
  assert (IS : forall x, In x separators -> existsb (Z.eqb x) separators = true).
  { intros x Hx. apply existsb_exists. exists x. split; [exact Hx|apply Z.eqb_refl]. }
  assert (NM : forall w, w <> str "min" -> zlist_eqb w (str "min") = false).
  { intros w Hw. destruct (zlist_eqb w (str "min")) eqn:EX; [|reflexivity]. apply zlist_eqb_spec in EX. contradiction. }
  unfold edit_offset. rewrite (tokens_sep _ (str "min") s1) by (try discriminate; try (repeat constructor); auto). rewrite (tokens_sep _ a s2) by auto. rewrite (tokens_one _ b) by auto.
  cbn [filter]. change (zlist_eqb (str "min") (str "min")) with true. rewrite (NM a MA), (NM b MB). reflexivity.
Qed.
Print Assumptions C74_min_refuted.

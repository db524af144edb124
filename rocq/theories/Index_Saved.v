(** An index built from the points of a file, saved with the file or alone, and
    found again. *)
From Coq Require Import ZArith Reals List Bool Lia Lra String.
From Coq Require Import ZifyBool ZifyNat.
Import ListNotations.
From Verif Require Import Outcome Bytes CStr Float64 Float64_Proofs Vlr_Model Schema_Model Bounds_Model Bounds_Proofs Header_Model Point_Model Stream_Model
  IO_Spec Reader_Proofs Reader_Vlrs Reader_Model Reader_Spec Reader_Api Reader_Open Reader_Hist Writer_Model Writer_Api Writer_Proofs Writer_File Writer_RT IO_Round IO_Samples Prop_Reader
  Iter_Spec Iter_Model Iter_Proofs Rewrite_Proofs Rewrite_Read Prop_Rewrite Chipper_Spec Chipper_Lists
  Index_Cell Index_Temp Index_Scan Index_Out Index_Query Index_Spec Index_ScanProofs Index_Items Index_Groups Index_Filter Index_Load Index_Axis Index_Build Index_Grid Index_QuerySpec Index_Size Index_Divide Index_Cells Index_Answer Index_Query_Thm
  Prop_IndexQuery Prop_IndexVlr Index_Frame Index_Store Index_File Index_FileSpec.
From Verif Require Import Endian_Proofs.
Local Open Scope Z_scope.
Local Notation length := List.length (only parsing).

(** ** The VLRs of an index *)
Definition rebase (b : list vlr) (j : job) : job :=
  mkJob (j_x j) (j_y j) (j_z j) (j_count j) (j_author j) (j_comment j) (j_date j) (j_csz j) (j_maxmem j) b.
Lemma build_frame b j pts : build_index (rebase b j) pts = omap (option_map (fun p => (fst p, b ++ snd p))) (build_index (rebase [] j) pts).
Proof.
  unfold build_index. cbn [rebase j_x j_y j_z j_count j_csz j_maxmem j_vlrs].
  destruct (make_grid _ _ _ _ _) as [[g|]|e|u]; cbn [obind]; try reflexivity. destruct (identify_all g pts) as [ps|e|u]; cbn [obind]; try reflexivity.
  destruct (scan_all _ _ _ ps) as [s|e|u]; cbn [obind]; try reflexivity. destruct (finish_cells _ _ _ _ _ _) as [[cells|]|e|u]; cbn [obind]; try reflexivity.
  change (head_of (rebase b j) g) with (head_of j g). change (head_of (rebase [] j) g) with (head_of j g).
  rewrite write_frame. destruct (write_index [] _ _) as [vs|e|u]; reflexivity.
Qed.

(** No cell with more than 13000 points: each cell then fits in one VLR. *)
Definition spread (j : job) (pts : list coords) : Prop :=
  forall g ps k, make_grid (j_x j) (j_y j) (j_z j) (j_count j) (j_csz j) = Ok (Some g) -> identify_all g pts = Ok ps -> 0 <= k -> lenB (ids_of k ps) <= 13000.
Lemma spread_uncrowded j pts : spread j pts -> uncrowded j pts.
Proof. intros H g ps k E1 E2 Hk _. apply (H g ps (k + 1) E1 E2). lia. Qed.
Lemma put_string_3 s : 3 <= lenB (put_string s).
Proof. unfold put_string. rewrite app_length, le_enc_length, app_length. cbn [List.length]. lia. Qed.
Lemma ihead_length_low h : 79 <= lenB (ihead_bytes h).
Proof. unfold ihead_bytes. rewrite !app_length, !le_enc_length. pose proof (put_string_3 (ih_author h)). pose proof (put_string_3 (ih_comment h)). pose proof (put_string_3 (ih_date h)). lia. Qed.

Record stored (j : job) (pts : list coords) (h : ihead) (vs : list vlr) : Prop := {
  st_head : ihead_ok h;
  st_bounds : index_bounds h = [j_x j; j_y j; j_z j];
  st_count : ih_count h = j_count j;
  st_data : ih_data h = 43;
  st_vlrs : Forall Reader_Vlrs.vlr_consistent (head_vlr h :: vs);
  st_kind : Forall is_data vs;
  st_size : 133 <= vlrs_size (head_vlr h :: vs) <= 1666 + 146 * lenB pts;
  st_some : pts <> [] -> vs <> [] }.
Theorem build_stored j pts : job_ok j pts -> spread j pts -> bytes_ok (j_author j) -> bytes_ok (j_comment j) -> bytes_ok (j_date j) ->
  exists h vs, build_index (rebase [] j) pts = Ok (Some (h, head_vlr h :: vs)) /\ stored j pts h vs.
Proof.
  intros J U BA BC BD. destruct J as [WX WY FZ PI HL HC HA HM HD HZ HV].
  destruct (make_grid_ok (j_x j) (j_y j) (j_z j) (j_count j) (j_csz j) WX WY FZ HC HZ) as (g & EG & GX & GY & GZ & G1 & G2 & G3 & G4 & G5 & G6 & G7).
  assert (GO : grid_ok g) by (constructor; rewrite ?GX, ?GY; assumption).
  destruct (cells_ok g (j_csz j) (j_maxmem j) pts GO ltac:(lia) ltac:(rewrite GX, GY, GZ; exact PI)) as (ps & s & l & EI & FI & ES & EF & LL & FL).
  assert (LP : length ps = length pts) by (symmetry; exact (Forall2_len _ _ _ FI)).
  destruct (cells_good g pts ps l GO HL LP LL FL) as (CG & CF).
  pose proof (head_fine j g GO HC HA HM HD) as HO.
  destruct (write_index_ok [] (head_of j g) l CF) as (gs & vs & EW & EN & EC & GF & _).
  exists (head_of j g), vs. split.
  { unfold build_index. cbn [rebase j_x j_y j_z j_count j_csz j_maxmem j_vlrs]. rewrite EG. cbn [obind]. rewrite EI. cbn [obind]. rewrite ES. cbn [obind]. rewrite EF. cbn [obind].
    change (head_of (rebase [] j) g) with (head_of j g). rewrite EW. reflexivity. }
  assert (WB : Forall vlr_bytes ([] ++ [head_vlr (head_of j g)] ++ vs)) by (apply (write_bytes (head_of j g) l); assumption).
  cbn [app] in WB. apply Forall_inv_tail in WB.
  assert (SZ : forall c, In c l -> lenB (pc_bytes c) <= 60 + 5 * k_num (snd c) /\ k_num (snd c) <= 13000).
  { intros c Hc. destruct (cell_index g pts ps l LP LL FL c Hc) as (i & E & B). destruct (ids_small pts ps l LP (Z.of_nat i)) as (I1 & I2).
    pose proof (FL i c E) as FC. destruct (fin_good g pts ps l GO HL LP LL _ _ c FC B (ids_sorted _ _) I1 I2) as (_ & _ & S). rewrite (fc_num _ _ _ _ _ FC).
    split; [exact S|]. apply (U g ps (Z.of_nat i) EG EI). lia. }
  assert (SUB : forall c, In c (cells_of gs) -> In c l /\ nonempty c = true). { intros c Hc. rewrite EC in Hc. now apply filter_In in Hc. }
  assert (SM : Forall (fun g => g_size g <= vlr_max) gs).
  { rewrite Forall_forall in *. intros b Hb. destruct (GF b Hb) as (_ & _ & _ & _ & K). destruct (Z_le_gt_dec (g_size b) vlr_max) as [L|L]; [exact L|]. destruct (K ltac:(lia)) as (c & EB).
    assert (IC : In c (cells_of gs)) by (unfold cells_of; apply in_flat_map; exists b; split; [exact Hb|rewrite EB; now left]).
    destruct (SZ c (proj1 (SUB c IC))) as (S1 & S2). unfold g_size, g_bytes in *. rewrite EB in *. cbn [flat_map] in *. rewrite app_nil_r in *. unfold vlr_max in *. lia. }
  destruct (encodes_stored gs vs EN SM WB) as (E1 & E2).
  assert (E3 : fold_right (fun g n => 57 + g_size g + n) 0 gs <= 146 * lenB pts).
  { eapply Z.le_trans; [apply sum_groups|].
    - eapply Forall_impl; [|exact GF]. cbv beta. tauto.
    - apply Forall_forall. intros c Hc. destruct (SUB c Hc) as (H1 & H2). destruct (SZ c H1) as (S1 & _). split; [exact S1|].
      unfold nonempty in H2. destruct (cell_index g pts ps l LP LL FL c H1) as (i & E & B). pose proof (fc_num _ _ _ _ _ (FL i c E)). lia.
    - rewrite EC. eapply Z.le_trans with (fold_right (fun c n => 146 * k_num (snd c) + n) 0 l).
      + assert (P : forall c, In c l -> 0 <= k_num (snd c)). { intros c Hc. destruct (cell_index g pts ps l LP LL FL c Hc) as (i & E & B). pose proof (fc_num _ _ _ _ _ (FL i c E)). lia. }
        clear -P. induction l as [|c l IH]; cbn [filter fold_right]; [lia|]. assert (0 <= k_num (snd c)) by (apply P; now left). specialize (IH (fun c Hc => P c (or_intror Hc))).
        destruct (nonempty c); cbn [fold_right]; lia.
      + pose proof (sum_nth (fun c : placed_cell => k_num (snd c)) (fun k => lenB (ids_of k ps)) l (fun i c E => fc_num _ _ _ _ _ (FL i c E))) as K.
        pose proof (sum_ids ps (length l)) as K2.
        assert (K3 : fold_right (fun c n => 146 * k_num (snd c) + n) 0 l = 146 * fold_right (fun (c : placed_cell) n => k_num (snd c) + n) 0 l).
        { clear. induction l as [|c l IH]; cbn [fold_right]; lia. }
        cbv beta in K. rewrite K3, K. lia. }
  pose proof (ihead_length (head_of j g)) as IL. pose proof (ihead_length_low (head_of j g)) as IL2. pose proof (vlrs_size_nonneg vs) as V0.
  constructor.
  - exact HO.
  - exact (bounds_h j g GX GY GZ).
  - reflexivity.
  - reflexivity.
  - constructor; [|exact E1]. apply head_vlr_ok; assumption.
  - eapply encodes_data; eassumption.
  - cbn [vlrs_size fold_right]. change (fold_right (fun v n => 54 + lenB (v_data v) + n) 0 vs) with (vlrs_size vs). change (v_data (head_vlr (head_of j g))) with (ihead_bytes (head_of j g)). lia.
  - intros NP NV. subst vs. assert (GN : gs = []).
    { revert EN. clear. intros EN. remember (@nil vlr) as n eqn:X. destruct EN as [|b ws gs rest G EN]; [reflexivity|]. destruct (group_vlrs_cons _ _ G) as (v & r & ->). discriminate. }
    assert (H0 : 0 <= 0 < lenB pts) by (destruct pts; [congruence|cbn [List.length]; lia]).
    destruct (cell_of g pts ps 0 GO FI H0) as (kx & ky & Hi & _ & BX & BY & _).
    assert (KB : 0 <= kx * gr_cy g + ky < lenB l) by (rewrite LL; nia). destruct (nth_error l (Z.to_nat (kx * gr_cy g + ky))) as [pc|] eqn:EP; [|apply nth_error_None in EP; lia].
    pose proof (fc_num _ _ _ _ _ (FL _ _ EP)) as FN. rewrite Z2Nat.id in FN by lia.
    assert (IN : In pc (filter nonempty l)). { apply filter_In. split; [eapply nth_error_In; eassumption|]. unfold nonempty. destruct (ids_of (kx * gr_cy g + ky) ps); [contradiction|]. cbn [List.length] in FN. lia. }
    rewrite <- EC, GN in IN. exact IN.
Qed.

(** ** The points of a file *)
Lemma f64_of_bits_bits x b : f64_bits x = b -> x = f64_of_bits b.
Proof. intros <-. unfold f64_of_bits, f64_bits, Bits.b64_of_bits, Bits.bits_of_b64. symmetry. exact (Bits.binary_float_of_bits_of_binary_float 52 11 eq_refl eq_refl eq_refl x). Qed.
Lemma bits3_inv t a b c : bits3 t = (a, b, c) -> x_of t = f64_of_bits a /\ y_of t = f64_of_bits b /\ z_of t = f64_of_bits c.
Proof. unfold bits3. intros E. injection E as E1 E2 E3. split; [now apply f64_of_bits_bits|]. split; now apply f64_of_bits_bits. Qed.
Lemma shows_reals F h : shows_file F h ->
  (x_of (h_scale h) = real_at F 131 /\ y_of (h_scale h) = real_at F 139 /\ z_of (h_scale h) = real_at F 147) /\
  (x_of (h_offset h) = real_at F 155 /\ y_of (h_offset h) = real_at F 163 /\ z_of (h_offset h) = real_at F 171) /\
  header_ranges h = [file_x F; file_y F; file_z F].
Proof.
  intros (P & _). destruct (bits3_inv _ _ _ _ (f_equal ph_scale P)) as (S1 & S2 & S3). destruct (bits3_inv _ _ _ _ (f_equal ph_offset P)) as (O1 & O2 & O3).
  destruct (bits3_inv _ _ _ _ (f_equal ph_max P)) as (A1 & A2 & A3). destruct (bits3_inv _ _ _ _ (f_equal ph_min P)) as (I1 & I2 & I3).
  split; [tauto|]. split; [tauto|]. unfold header_ranges, file_x, file_y, file_z, real_at. now rewrite A1, A2, A3, I1, I2, I3.
Qed.
Lemma coords_at F h i : a_file F -> 12 <= f_reclen F -> shows_file F h -> 0 <= i < f_npts F -> point_coords (mkPoint (file_record F i) h) = Ok (file_point F i).
Proof.
  intros (HF & _ & _ & HC) H12 HS Hi. destruct (shows_reals F h HS) as ((S1 & S2 & S3) & (O1 & O2 & O3) & _).
  pose proof (file_record_bytes F i (proj1 HF)) as HB. pose proof (file_record_length F i HC (proj1 HF) Hi) as HL.
  unfold point_coords, get_x, get_y, get_z, get_raw_x, get_raw_y, get_raw_z, bits_to_int. cbn [p_data p_hdr].
  rewrite !load_le_ok by (auto; lia). cbn [obind]. rewrite S1, S2, S3, O1, O2, O3. reflexivity.
Qed.
Lemma next_coords_reads F n : forall c d r fuel, reads (F, c, d) r -> 12 <= f_reclen F -> 0 <= c -> Z.to_nat (f_npts F - c) = n -> (n < fuel)%nat ->
  exists r' d', next_coords fuel r = Ok (map (file_point F) (zseq c n), r') /\ reads (F, Z.max c (f_npts F), d') r' /\ r_hdr r' = r_hdr r.
Proof.
  induction n as [|n IH]; intros c d r fuel HR H12 Hc En Hf; destruct fuel as [|fuel]; try lia; cbn [next_coords]; destruct (next_reads F c d r HR) as (r1 & EN & HR1 & EH); rewrite EN; cbn [fst obind].
  - destruct (Z.ltb_spec c (f_npts F)); [lia|]. exists r1, d. rewrite Z.max_l by lia. change (zseq c 0) with (@nil Z). cbn [map]. now split.
  - destruct (Z.ltb_spec c (f_npts F)) as [L|L]; [|lia]. pose proof HR1 as (HA & (HI & _) & HD). cbn [fst snd] in *.
    unfold r_point. rewrite HD, (coords_at F (r_hdr r1) c HA H12 (proj1 HI)) by lia. cbn [obind].
    destruct (IH (c + 1) (file_record F c) r1 fuel HR1 H12) as (r2 & d2 & E2 & HR2 & EH2); try lia. rewrite E2. cbn [obind]; rewrite zseq_S; cbn [map].
    exists r2, d2. split; [reflexivity|]. replace (Z.max c (f_npts F)) with (Z.max (c + 1) (f_npts F)) by lia. split; [exact HR2|congruence].
Qed.
Lemma seek_reads F c d r : reads (F, c, d) r -> exists r1 a, reader_seek r 0 = (r1, Ok a) /\ reads (F, 0, d) r1 /\ r_hdr r1 = r_hdr r /\ r_size r1 = f_npts F.
Proof.
  intros (HA & HR & HD). cbn [fst snd] in *. pose proof HA as (HF & HN & HS & HC).
  destruct (rcur_step any_xml F r c (RSeek 0) HF HN HS HC (Z.le_refl 0) eq_refl HR) as (r1 & E & R1 & D1).
  cbn [rop_run] in E. destruct (reader_seek r 0) as [r2 a] eqn:EK. injection E as -> E.
  assert (EH : r_hdr r1 = r_hdr r). { unfold reader_seek in EK. destruct (r_size r =? 0); [|destruct (r_size r <? 0)]; apply (f_equal fst) in EK; cbn [fst] in EK; rewrite <- EK; reflexivity. }
  destruct (fields_nonneg F (proj1 HF)) as (_ & N0 & _). cbn [cur_step] in E, R1, D1.
  destruct a as [b|e|u].
  - exists r1, b. split; [reflexivity|]. pose proof R1 as (HI & _). split; [|split; [exact EH|apply HI]]. split; [exact HA|]. cbn [fst snd].
    destruct (Z.ltb_spec 0 (f_npts F)); cbn [fst snd] in *; [split; [exact R1|congruence]|]. destruct (Z.eqb_spec 0 (f_npts F)); cbn [fst snd] in *; [|lia].
    split; [|congruence]. destruct R1 as (A & B & C & D). assert (c = 0) by lia. now subst c.
  - exfalso. destruct (Z.ltb_spec 0 (f_npts F)); cbn [fst snd ans] in E; [discriminate|]. replace (f_npts F) with 0 in E by lia. discriminate.
  - exfalso. cbn [ans] in E. discriminate.
Qed.
Lemma all_coords_reads F c d r : reads (F, c, d) r -> 12 <= f_reclen F -> exists r' d', all_coords r = Ok (file_coords F, r') /\ reads (F, f_npts F, d') r' /\ r_hdr r' = r_hdr r.
Proof.
  intros HR H12. destruct (seek_reads F c d r HR) as (r1 & a & E & R1 & EH & ES). unfold all_coords. rewrite E. cbn [obind]. rewrite ES.
  pose proof HR as ((HF & _) & _). cbn [fst] in HF. destruct (fields_nonneg F (proj1 HF)) as (_ & N0 & _).
  destruct (next_coords_reads F (Z.to_nat (f_npts F)) 0 d r1 (S (Z.to_nat (f_npts F))) R1 H12) as (r2 & d2 & E2 & R2 & EH2); try lia.
  exists r2, d2. unfold file_coords. rewrite Z.max_r in R2 by lia. split; [exact E2|]. split; [exact R2|congruence].
Qed.
Lemma copy_next_reads F n : forall c d r fuel w w1, reads (F, c, d) r -> 0 <= c -> Z.to_nat (f_npts F - c) = n -> (n < fuel)%nat ->
  write_points w (map (fun x => mkPoint x (r_hdr r)) (records_from F c)) = Ok w1 -> exists r', copy_next fuel r w = Ok (r', w1).
Proof.
  induction n as [|n IH]; intros c d r fuel w w1 HR Hc En Hf EW; destruct fuel as [|fuel]; try lia; cbn [copy_next]; destruct (next_reads F c d r HR) as (r1 & EN & HR1 & EH); rewrite EN; cbn [fst obind].
  - destruct (Z.ltb_spec c (f_npts F)); [lia|]. rewrite records_from_end in EW by lia. injection EW as <-. eauto.
  - destruct (Z.ltb_spec c (f_npts F)) as [L|L]; [|lia]. pose proof HR1 as (_ & _ & HD). cbn [fst snd] in HD. rewrite (records_from_step F c) in EW by lia. cbn [map write_points] in EW.
    unfold r_point. rewrite HD, EH. destruct (write_point w (mkPoint (file_record F c) (r_hdr r))) as [w2|e|u]; try discriminate. cbn [obind] in *.
    rewrite <- EH in EW. eapply (IH (c + 1)); try eassumption; lia.
Qed.
Lemma save_session sv F c d r h G : reads (F, c, d) r -> write_file sv h (file_points F (r_hdr r)) = Ok G -> save_index sv false r h = Ok G.
Proof.
  intros HR EW. unfold write_file, write_session in EW. unfold save_index.
  destruct (writer_new sv (os_open []) h) as [w|e|u]; cbn [obind] in *; try discriminate.
  destruct (write_points w (file_points F (r_hdr r))) as [w2|e|u] eqn:EP; cbn [obind] in EW; try discriminate.
  destruct (seek_reads F c d r HR) as (r1 & a & E & R1 & EH & ES). rewrite E. cbn [obind]. rewrite ES.
  pose proof HR as ((HF & _) & _). cbn [fst] in HF. destruct (fields_nonneg F (proj1 HF)) as (_ & N0 & _).
  destruct (copy_next_reads F (Z.to_nat (f_npts F)) 0 d r1 (S (Z.to_nat (f_npts F))) w w2 R1) as (r2 & E2); try lia.
  { rewrite EH. exact EP. }
  rewrite E2. exact EW.
Qed.
Lemma save_alone sv r h G : write_file sv h [] = Ok G -> save_index sv true r h = Ok G.
Proof.
  intros EW. unfold write_file, write_session in EW. unfold save_index. destruct (writer_new sv (os_open []) h) as [w|e|u]; cbn [obind] in *; try discriminate. exact EW.
Qed.

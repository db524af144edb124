(** lasblock: the points of a file, block by block. *)
From Coq Require Import ZArith List Bool Lia String Permutation.
From Coq Require Import ZifyBool ZifyNat.
Import ListNotations.
From Verif Require Import Outcome Bytes Float64 Float64_Proofs CStr Vlr_Model Schema_Model Schema_Spec Header_Model Point_Model Point_Spec Point_Api
  Coord_Api Coord_Proofs Coord_Header Stream_Model Stream_Proofs IO_Spec Reader_Proofs Reader_Vlrs Reader_Model Reader_Spec Reader_Schema Reader_Api Reader_Open Reader_Hist Reader_Filter
  Writer_Model Writer_Api Writer_Proofs Rewrite_Proofs Prop_Reader Iter_Spec Iter_Model Iter_Proofs Prop_Rewrite
  Summary_Model Summary_Spec Summary_Proofs Prop_Summary Text_Model Text_Proofs
  Las2las_Spec Las2las_Copy Las2las_Model Las2las_Summary Las2las_File Las2las_Loop Las2las_Points Las2las_Main Las2las_Split
  Chipper_Model Chipper_Spec Prop_Chipper Lasblock_Model.
Local Open Scope Z_scope.
Local Notation length := List.length (only parsing).

(** ** writing a block *)
Lemma part_bounds t F : standard F -> gap F <= 2 -> u_at F 25 1 <> 0 \/ gap F <> 1 -> sane_scaling F -> t_text t = text16 ->
  forall r, reader_open (t_xml t) (t_doy t) (t_year t) F = Ok r ->
  forall ds x0 y0 z0 x1 y1 z1, recs_ok F ds -> ds <> [] ->
  exists G q G', write_file (t_sv t) (rebound (r_hdr r) x0 y0 z0 x1 y1 z1) (points_of (r_hdr r) ds) = Ok G /\
    cs_feed cs_new (points_of (r_hdr r) ds) = Ok q /\ repair_file t q G = Ok G' /\ finished F (r_hdr r) ds G'.
Proof.
  intros HS HG Hv SS TT r E ds a0 b0 c0 a1 b1 c1 HD Dne.
  destruct (copy_bounds (t_sv t) (t_xml t) (t_doy t) (t_year t) F a0 b0 c0 a1 b1 c1 HS HG Hv) as (r' & E' & W). rewrite E in E'. apply Writer_Append.Ok_inj in E'. subst r'.
  pose proof HS as (HA & HP). destruct (plain_header (t_xml t) (t_doy t) (t_year t) F HP) as (r' & E' & Hsh & _). rewrite E in E'. apply Writer_Append.Ok_inj in E'. subst r'.
  pose proof HA as (HF & _ & _ & HC). set (h := r_hdr r) in *. set (ps := points_of h ds) in *.
  assert (LP : length ps = length ds) by apply points_len.
  destruct (W ps (points_copyable F h ds HC HD)) as (G & EW & P & GU & V & ST & GA & RC); [rewrite LP; apply HD|]. rewrite LP in P.
  assert (NG : f_npts G = Z.of_nat (length ds)) by exact (f_equal ph_npts P).
  assert (RG : records_from G 0 = ds) by exact (recs_of_copy F h ds G HD NG RC).
  rewrite copy_pub_once in P.
  pose proof (points_header F h ds HP Hsh HD) as FO. fold ps in FO.
  destruct (cinv_feed h ps cs_new [] (cinv_new h) FO) as (q & EQ & IQ). cbn [app] in IQ. exists G, q.
  assert (LF : length (slice F 8 16) = 16%nat).
  { unfold slice. rewrite firstn_length, skipn_length. destruct HF as (_ & HL & _). lia. }
  assert (GS : forall G', slice G' 8 16 = guid_swap (slice G 8 16) -> slice G' 8 16 = slice F 8 16) by (intros G' ->; rewrite GU; now apply guid_swap_swap).
  destruct (q_mm q) as [[mn mx]|] eqn:EM.
  2:{ exfalso. destruct IQ as (_ & _ & _ & M). rewrite EM in M. apply (f_equal (@List.length _)) in M. rewrite LP in M. apply length_zero_iff_nil in M. contradiction. }
  destruct (corners h q ps mn mx (header_sane F h HF SS Hsh) IQ FO EM) as (x0 & y0 & z0 & x1 & y1 & z1 & T0 & T1 & BO).
  rewrite <- TT in T0, T1.
  destruct (repair_points t h q ps G mn mx x0 y0 z0 x1 y1 z1 ST) as (G' & ER & PR & GR & VR & SR & GaR & LR & RR); auto.
  { rewrite NG. destruct ds; [contradiction|cbn [List.length]; lia]. }
  exists G'. split; [exact EW|]. split; [exact EQ|]. split; [exact ER|].
  split; [split; [exact SR|split; [|now rewrite VR]]|split; [now apply GS|split; [intros X; contradiction|]]].
  - assert (N' : f_npts G' = f_npts G).
    { pose proof (f_equal ph_npts PR) as X. unfold stored in X. destruct (_ =? _) in X; exact X. }
    rewrite <- RG. unfold records_from. rewrite N'. apply map_ext. intros i. apply RR. lia.
  - intros _. destruct (five_ok h ps FO) as (rns & VR' & FR); [rewrite LP; apply HD|].
    exists (bits3 (x1, y1, z1)), (bits3 (x0, y0, z0)), rns. split; [exact BO|]. split; [exact VR'|].
    rewrite PR, FR, P.
    transitivity (stored (once F (with_returns (with_bounds (copied F (Z.of_nat (length ds))) (bits3 (x1, y1, z1)) (bits3 (x0, y0, z0))) (five_returns rns)))).
    + f_equal. unfold once. destruct (u_at F 25 1 =? 0); reflexivity.
    + apply stored_once. reflexivity.
Qed.

(** ** reading *)
Definition plane (h : header) (d : list Z) (xy : f64 * f64) : Prop :=
  get_coord AxX (mkPoint d h) = Ok (fst xy) /\ get_coord AxY (mkPoint d h) = Ok (snd xy).

Lemma load_points_ok fuel : forall F c d r, plain_file F -> reads (F, c, d) r -> 0 <= c <= f_npts F -> (Z.to_nat (f_npts F - c) < fuel)%nat ->
  exists pts r1, load_points fuel r = Ok (pts, r1) /\ Forall2 (plane (r_hdr r)) (records_from F c) pts /\ rinv F r1 /\ r_hdr r1 = r_hdr r.
Proof.
  induction fuel as [|fuel IH]; intros F c d r HP R Hc Hf; [lia|]. cbn [load_points].
  destruct (next_reads F c d r R) as (r1 & E & R1 & H1). change (reader_next None (fun p => Ok (p_data p)) r tt) with (reader_next no_filter no_transform r tt).
  rewrite E. destruct (Z.ltb_spec c (f_npts F)) as [L|L].
  - destruct (IH F (c + 1) (file_record F c) r1 HP R1 ltac:(lia) ltac:(lia)) as (pts & r2 & E2 & F2 & I2 & H2).
    pose proof R1 as (_ & (I1 & _) & D1). cbn [fst snd] in I1, D1. pose proof I1 as (A & _ & _ & _ & _ & _ & G1 & B1 & _).
    destruct (fields_nonneg F (proj1 (proj1 HP))) as (_ & _ & RL).
    assert (W : of_header (r_hdr r1) (mkPoint (r_data r1) (r_hdr r1))) by (apply (file_point F); auto; rewrite G1; lia).
    destruct W as (W & _).
    destruct (raw_get _ AxX W) as (nx & Gx & _). destruct (raw_get _ AxY W) as (ny & Gy & _).
    assert (X : get_x (r_point r1) = Ok (descale (scale_of AxX (r_hdr r1)) (Coord_Api.offset_of AxX (r_hdr r1)) nx)) by exact (coord_of_raw AxX _ nx Gx).
    assert (Y : get_y (r_point r1) = Ok (descale (scale_of AxY (r_hdr r1)) (Coord_Api.offset_of AxY (r_hdr r1)) ny)) by exact (coord_of_raw AxY _ ny Gy).
    rewrite X, Y. cbn [obind]. rewrite E2. cbn [obind]. eexists _, r2. split; [reflexivity|]. split; [|split; [exact I2|congruence]].
    rewrite (Iter_Proofs.records_from_step F c) by lia. constructor; [|rewrite <- H1; exact F2].
    rewrite <- D1, <- H1. split; cbn [fst snd]; [exact X|exact Y].
  - exists [], r1. rewrite (Iter_Proofs.records_from_end F c) by lia. split; [reflexivity|]. split; [constructor|]. destruct R1 as (_ & (I1 & _) & _). split; [exact I1|exact H1].
Qed.

Lemma at_hdr tr r n r1 a : reader_at tr r n = (r1, a) -> r_hdr r1 = r_hdr r.
Proof.
  unfold reader_at. destruct (_ <=? n); [intros E; apply (f_equal fst) in E; cbn [fst] in E; now subst r1|].
  destruct (impl_at tr r n) as [r2 b] eqn:E. intros N.
  assert (r1 = r2) by (destruct b as [u|e|u]; [|destruct e|]; apply (f_equal fst) in N; cbn [fst] in N; congruence). subst r2. clear N.
  unfold impl_at in E. destruct (_ =? n); [apply (f_equal fst) in E; cbn [fst] in E; now subst r1|].
  destruct (_ <? n); [apply (f_equal fst) in E; cbn [fst] in E; now subst r1|].
  destruct (read_record _ _ _) as [[d s]|e|u]; [destruct (tr _)| |]; apply (f_equal fst) in E; cbn [fst] in E; now subst r1.
Qed.

Lemma copy_ids_ok F : las_file F -> reads_standard any_xml F -> finite_scaling F -> complete F ->
  forall ids r q w q' w', rinv F r -> Forall (fun i => 0 <= i < f_npts F) ids ->
  cs_feed q (points_of (r_hdr r) (map (file_record F) ids)) = Ok q' ->
  write_points w (points_of (r_hdr r) (map (file_record F) ids)) = Ok w' ->
  exists r1, copy_ids r q w ids = Ok (r1, q', w') /\ rinv F r1 /\ r_hdr r1 = r_hdr r.
Proof.
  intros HF HN HS HC. induction ids as [|i ids IH]; intros r q w q' w' Hi Fi EQ EW; cbn [copy_ids map points_of cs_feed write_points] in *.
  - apply Writer_Append.Ok_inj in EQ, EW. subst. exists r. auto.
  - destruct (Forall_inv Fi) as [I0 I1]. apply Forall_inv_tail in Fi.
    destruct (at_exact F r i HF HC Hi I0) as (r1 & E & D1 & _). destruct (Z.ltb_spec i (f_npts F)); [|lia].
    pose proof (at_hdr _ _ _ _ _ E) as H1.
    assert (R1 : rinv F r1).
    { destruct (rop_inv_x any_xml F r (RAt i) HF HN HS HC I0 Hi) as (r2 & a & E2 & R2). cbn [rop_run] in E2. rewrite E in E2. apply (f_equal fst) in E2. cbn [fst] in E2. now subst r2. }
    change (fun p => Ok (p_data p)) with no_transform. rewrite E.
    assert (PE : r_point r1 = mkPoint (file_record F i) (r_hdr r)) by (unfold r_point; now rewrite D1, H1). rewrite PE.
    destruct (cs_add q (mkPoint (file_record F i) (r_hdr r))) as [q1|e|u]; try discriminate. cbn [obind] in *.
    destruct (write_point w (mkPoint (file_record F i) (r_hdr r))) as [w1|e|u]; try discriminate. cbn [obind] in *.
    rewrite <- H1 in EQ, EW. destruct (IH r1 q1 w1 q' w' R1 Fi EQ EW) as (r2 & E2 & R2 & H2). exists r2. split; [exact E2|]. split; [exact R2|congruence].
Qed.

(** ** all blocks *)
Definition tile_of (F : list Z) (h : header) (b : chip_block) (g : list Z) : Prop := finished F h (map (file_record F) (cb_ids b)) g.

Lemma record_len F i : complete F -> bytes_ok F -> 0 <= i < f_npts F -> bytes_ok (file_record F i) /\ Z.of_nat (length (file_record F i)) = f_reclen F.
Proof.
  intros (C1 & C2) HB Hi. destruct (fields_nonneg F HB) as (D0 & N0 & RL). unfold file_record, slice. split; [apply bytes_firstn, bytes_skipn, HB|].
  rewrite firstn_length, skipn_length.
  assert (0 <= i * f_reclen F /\ (i + 1) * f_reclen F <= f_npts F * f_reclen F) as (K1 & K2).
  { split; [apply Z.mul_nonneg_nonneg; lia|apply Z.mul_le_mono_nonneg_r; lia]. }
  specialize (C2 ltac:(lia)). lia.
Qed.
Lemma ids_recs F ids : complete F -> bytes_ok F -> Forall (fun i => 0 <= i < f_npts F) ids -> Z.of_nat (length ids) < 2 ^ 32 -> recs_ok F (map (file_record F) ids).
Proof.
  intros HC HB Hi HL. split; [|rewrite map_length; exact HL]. apply Forall_map. eapply Forall_impl; [|exact Hi]. intros i Hi'. now apply record_len.
Qed.

Lemma tiles_ok t F : standard F -> gap F <= 2 -> u_at F 25 1 <> 0 \/ gap F <> 1 -> sane_scaling F -> t_text t = text16 ->
  forall r0, reader_open (t_xml t) (t_doy t) (t_year t) F = Ok r0 ->
  forall c bs seen, blocks_seen c bs = Ok seen ->
  Forall (fun b => Forall (fun i => 0 <= i < f_npts F) (cb_ids b) /\ 1 <= Z.of_nat (length (cb_ids b)) < 2 ^ 32) seen ->
  forall r x0 y0 z0 x1 y1 z1, rinv F r -> r_hdr r = r_hdr r0 ->
  exists gs, write_tiles t r (rebound (r_hdr r0) x0 y0 z0 x1 y1 z1) c bs = Ok gs /\ Forall2 (tile_of F (r_hdr r0)) seen gs.
Proof.
  intros HS HG Hv SS TT r0 E0 c. pose proof HS as (HA & _). pose proof HA as (HF & HN & FS & HC). pose proof (proj1 HF) as HB.
  induction bs as [|b bs IH]; intros seen ES FO r x0 y0 z0 x1 y1 z1 Hi Hh; cbn [blocks_seen write_tiles] in *.
  - apply Writer_Append.Ok_inj in ES. subst seen. exists []. split; [reflexivity|constructor].
  - destruct (block_ids c b) as [ids|e|u] eqn:EI; try discriminate. cbn [obind] in ES.
    destruct (blocks_seen c bs) as [rest|e|u] eqn:ER; try discriminate. cbn [obind] in ES. apply Writer_Append.Ok_inj in ES. subst seen.
    pose proof (Forall_inv FO) as (FI & FL). apply Forall_inv_tail in FO. cbn [cb_ids] in FI, FL.
    assert (RO : recs_ok F (map (file_record F) ids)) by (apply ids_recs; auto; lia).
    destruct (part_bounds t F HS HG Hv SS TT r0 E0 (map (file_record F) ids) (b_minx b) (b_miny b) f64_zero (b_maxx b) (b_maxy b) f64_zero RO) as (G & q & G' & EW & EQ & ER' & FI').
    { intros X. apply (f_equal (@List.length _)) in X. rewrite map_length in X. cbn [List.length] in X. lia. }
    unfold write_file, write_session in EW.
    unfold write_tile. 
    change (set_extent2 (rebound (r_hdr r0) x0 y0 z0 x1 y1 z1) (b_minx b) (b_miny b) (b_maxx b) (b_maxy b)) with (rebound (r_hdr r0) (b_minx b) (b_miny b) f64_zero (b_maxx b) (b_maxy b) f64_zero).
    set (hb := rebound (r_hdr r0) (b_minx b) (b_miny b) f64_zero (b_maxx b) (b_maxy b) f64_zero) in *. cbv zeta.
    destruct (writer_new (t_sv t) (os_open []) hb) as [w|e|u]; try discriminate. cbn [obind] in *. rewrite EI. cbn [obind].
    destruct (write_points w (points_of (r_hdr r0) (map (file_record F) ids))) as [w1|e|u] eqn:EP; try discriminate. cbn [obind] in EW.
    rewrite <- Hh in EQ, EP. destruct (copy_ids_ok F HF (plain_standard any_xml F HN) FS HC ids r cs_new w q w1 Hi FI EQ EP) as (r1 & EC & I1 & H1). rewrite EC. cbn [obind].
    rewrite EW. cbn [obind]. rewrite ER'. cbn [obind].
    destruct (IH rest eq_refl FO r1 (b_minx b) (b_miny b) f64_zero (b_maxx b) (b_maxy b) f64_zero I1 ltac:(congruence)) as (gs & EG & F2). fold hb in EG. rewrite EG. cbn [obind].
    exists (G' :: gs). split; [reflexivity|]. constructor; [exact FI'|exact F2].
Qed.

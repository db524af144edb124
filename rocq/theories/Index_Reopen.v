(** Making, saving, finding and using an index. *)
From Coq Require Import ZArith Reals List Bool Lia String.
From Coq Require Import ZifyBool ZifyNat.
Import ListNotations.
From Verif Require Import Outcome Bytes CStr Float64 Float64_Proofs Vlr_Model Schema_Model Schema_Spec Bounds_Model Header_Model Point_Model Stream_Model Stream_Proofs
  IO_Spec Reader_Proofs Reader_Vlrs Reader_Model Reader_Spec Reader_Api Reader_Open Reader_Hist Writer_Model Writer_Api Writer_Proofs Writer_File Writer_RT IO_Round IO_Samples Prop_Reader
  Iter_Spec Iter_Model Iter_Proofs Rewrite_Proofs Rewrite_Read Prop_Rewrite Rewrite_Grow Chipper_Spec Chipper_Lists
  Index_Cell Index_Temp Index_Scan Index_Out Index_Query Index_Spec Index_Load Index_Build Index_QuerySpec Prop_IndexQuery Index_Frame Index_Store Index_File Index_FileSpec Index_Saved.
Local Open Scope Z_scope.
Local Notation length := List.length (only parsing).

Lemma index_vlr_not v : not_index v = negb (index_vlr v).
Proof.
  unfold not_index, index_vlr, has_id, vlr_get_user. cbn [andb]. change (str "liblas") with liblas_user.
  destruct (zlist_eqb _ _), (v_id v =? 42), (v_id v =? 43); reflexivity.
Qed.
Lemma index_vlr_norm v : index_vlr (vlr_norm v) = index_vlr v.
Proof. unfold index_vlr. now rewrite !has_id_norm. Qed.
Lemma no_index_all l : Forall (fun v => index_vlr v = false) l -> forallb not_index l = true.
Proof. intros H. apply forallb_forall. rewrite Forall_forall in H. intros v Hv. now rewrite index_vlr_not, (H v Hv). Qed.
Lemma head_neutral h : neutral (head_vlr h). Proof. split; [|split]; reflexivity. Qed.
Lemma data_neutral v : is_data v -> neutral v. Proof. intros (n & d & ->). split; [|split]; reflexivity. Qed.

(** ** Finding *)
Lemma head_not_index v : not_index v = true -> is_index_head v = false.
Proof. unfold not_index, is_index_head. destruct (zlist_eqb _ _), (v_id v =? 42); cbn; congruence. Qed.
Lemma find_none l ix : forallb not_index l = true -> find_index (length l) l ix = Ok (ix, false).
Proof.
  induction l as [|v l IH]; intros H; cbn [find_index List.length]; [reflexivity|]. cbn [forallb] in H. apply andb_true_iff in H. destruct H as (H1 & H2).
  rewrite (head_not_index v H1). now apply IH.
Qed.
Lemma norm_not_index l : forallb not_index (map vlr_norm l) = forallb not_index l.
Proof. induction l as [|v l IH]; [reflexivity|]. cbn [map forallb]. rewrite IH, !index_vlr_not, index_vlr_norm. reflexivity. Qed.
Lemma norm_load ix v : load_index_vlr ix (vlr_norm v) = load_index_vlr ix v. Proof. reflexivity. Qed.
Lemma find_first pre h rest ix n : forallb not_index pre = true -> ihead_ok h -> (length pre < n)%nat ->
  find_index n (map vlr_norm (pre ++ head_vlr h :: rest)) ix = Ok (idx_of h, true).
Proof.
  revert n. induction pre as [|v pre IH]; intros n H HO Hn; destruct n as [|n]; try (cbn [List.length] in Hn; lia); cbn [app map find_index].
  - assert (E : is_index_head (vlr_norm (head_vlr h)) = true). { unfold is_index_head. destruct (norm_same (head_vlr h)) as (-> & -> & _). reflexivity. }
    rewrite E, norm_load, load_ok by exact HO. reflexivity.
  - cbn [forallb] in H. apply andb_true_iff in H. destruct H as (H1 & H2).
    rewrite head_not_index by (now rewrite index_vlr_not, index_vlr_norm, <- index_vlr_not). apply IH; auto. cbn [List.length] in Hn. lia.
Qed.
Definition fin_range (r : range) : Prop := f64_fin (rg_min r) = true /\ f64_fin (rg_max r) = true.
Lemma validate_same ph h x y z : index_bounds h = [x; y; z] -> header_ranges ph = [x; y; z] -> fin_range x -> fin_range y -> fin_range z -> h_npts ph = ih_count h ->
  validate ph (idx_of h) = Ok true.
Proof.
  intros E1 E2 (X1 & X2) (Y1 & Y2) (Z1 & Z2) EN. unfold validate. cbn [ix_h idx_of]. rewrite E1, E2. cbn [bounds_equal]. unfold range_equal.
  rewrite !compare_distance_refl by assumption. cbn [andb negb obind]. rewrite EN, Z.eqb_refl. reflexivity.
Qed.

(** ** Adding the VLRs *)
Lemma add_vlrs_eq l : forall h, h_nvlr h + lenB l < 2 ^ 32 -> 0 <= h_nvlr h -> add_vlrs h l = h_upd_vlrs h (h_nvlr h + lenB l) (h_vlrs h ++ l).
Proof.
  induction l as [|v l IH]; intros h H H0; cbn [add_vlrs List.length] in *.
  - rewrite Z.add_0_r, app_nil_r. destruct h. reflexivity.
  - rewrite IH.
    + unfold add_vlr. cbn [h_nvlr h_vlrs h_upd_vlrs]. rewrite Z.mod_small by lia. rewrite <- app_assoc. cbn [app]. replace (h_nvlr h + 1 + lenB l) with (h_nvlr h + Z.of_nat (S (length l))) by lia. reflexivity.
    + unfold add_vlr. cbn [h_nvlr h_upd_vlrs]. rewrite Z.mod_small by lia. lia.
    + unfold add_vlr. cbn [h_nvlr h_upd_vlrs]. rewrite Z.mod_small by lia. lia.
Qed.

(** ** What is asked of the file *)
(** The job of indexing a file. *)
Definition file_job (F : list Z) (pm : params) : job :=
  mkJob (file_x F) (file_y F) (file_z F) (f_npts F) (pm_author pm) (pm_comment pm) (pm_date pm) (pm_csz pm) (pm_maxmem pm) [].
Definition short_string (s : list Z) : Prop := no_nul s /\ bytes_ok s /\ lenB s <= 511.
Record covered (F : list Z) (pm : params) : Prop := {
  cv_file : standard F;
  cv_gap : gap F < 133;
  cv_room : Z.of_nat (file_vlrs_end F) < 2 ^ 29;
  cv_x : wide (file_x F); cv_y : wide (file_y F); cv_z : flat (file_z F);
  cv_in : Forall (inside (file_x F) (file_y F) (file_z F)) (file_coords F);
  cv_many : f_npts F <= 10000000;
  cv_author : short_string (pm_author pm); cv_comment : short_string (pm_comment pm); cv_date : short_string (pm_date pm);
  cv_zbin : f64_gt (pm_csz pm) f64_zero && negb (compare_distance (pm_csz pm) f64_zero) = false;
  cv_spread : spread (file_job F pm) (file_coords F) }.
Lemma file_coords_length F : lenB (file_coords F) = Z.max 0 (f_npts F).
Proof. unfold file_coords. rewrite map_length, zseq_length. lia. Qed.
Lemma std_reclen F : standard F -> 12 <= f_reclen F.
Proof. intros (_ & _ & _ & H & _). rewrite H. unfold std_length. destruct (_ =? _); [lia|]. destruct (_ =? _); [lia|]. destruct (_ =? _); lia. Qed.
Lemma covered_job F pm b : covered F pm -> forallb not_index b = true -> job_ok (rebase b (file_job F pm)) (file_coords F).
Proof.
  intros [(((HB & _) & _) & _) _ _ WX WY FZ PI HM (A1 & A2 & A3) (B1 & B2 & B3) (D1 & D2 & D3) HZ _] HV. pose proof (u_at_range F 107 4 HB) as R. change (pow256 4) with (2 ^ 32) in R. fold (f_npts F) in R.
  constructor; cbn [rebase file_job j_x j_y j_z j_count j_author j_comment j_date j_csz j_vlrs]; auto; try (now split). rewrite file_coords_length. lia.
Qed.
Lemma rebase_same b j : rebase b (rebase [] j) = rebase b j. Proof. reflexivity. Qed.

(** the index of a file, and the file with it *)
Theorem make_core sv xml doy year pm force alone F ix found : covered F pm ->
  (forall r, reader_open xml doy year F = Ok r -> shows_file F (r_hdr r) -> h_vlrs (r_hdr r) = file_vlrs F ->
     find_index (length (file_vlrs F)) (file_vlrs F) ix_new = Ok (ix, found) /\ (found = true -> force = false /\ validate (r_hdr r) ix = Ok false)) ->
  exists h vs G, build_index (file_job F pm) (file_coords F) = Ok (Some (h, head_vlr h :: vs)) /\ stored (file_job F pm) (file_coords F) h vs /\
    make_index sv xml doy year pm force alone F = Ok (true, Some G) /\
    pub_of_file G = with_counts (if u_at F 25 1 =? 0 then with_source (pub_of_file F) (u_at F 6 2) 0 else pub_of_file F)
      (grown_doff F (head_vlr h :: vs)) (u_at F 100 4 + 1 + lenB vs) (if alone then 0 else f_npts F) /\
    slice G 8 16 = guid_swap (slice F 8 16) /\
    file_vlrs G = map vlr_norm (grown F (head_vlr h :: vs)) /\ standard G /\
    (alone = false -> forall i, 0 <= i < f_npts F -> file_record G i = file_record F i).
Proof.
  intros CV HFIND. pose proof CV as [ST HG HR WX WY FZ PI HM HA HC HD HZ SP]. pose proof ST as (HAF & HPF).
  pose proof (proj1 (proj1 HAF)) as HB. destruct (fields_nonneg F HB) as (_ & N0 & _).
  assert (J : job_ok (file_job F pm) (file_coords F)) by exact (covered_job F pm [] CV eq_refl).
  destruct (build_stored (file_job F pm) (file_coords F) J SP) as (h & vs & EB & SD); try (cbn [file_job j_author j_comment j_date]; first [apply HA|apply HC|apply HD]).
  change (rebase [] (file_job F pm)) with (file_job F pm) in EB.
  pose proof (st_size _ _ _ _ SD) as SZ. rewrite file_coords_length in SZ.
  assert (NN : Forall neutral (head_vlr h :: vs)). { constructor; [apply head_neutral|]. eapply Forall_impl; [|exact (st_kind _ _ _ _ SD)]. exact data_neutral. }
  destruct (grow sv xml doy year F (head_vlr h :: vs) ST (st_vlrs _ _ _ _ SD) NN ltac:(lia) ltac:(lia)) as (r & E & HRd & Hsh & Hv & GR).
  set (ps := if alone then [] else file_points F (r_hdr r)).
  assert (EL : get_record_length (r_hdr r) = f_reclen F) by exact (shows_reclen F _ Hsh).
  assert (LP : lenB ps = if alone then 0 else f_npts F) by (unfold ps; destruct alone; [reflexivity|]; rewrite file_points_length; lia).
  destruct (GR ps) as (G & EW & P1 & P2 & P3 & P4 & P5).
  { unfold ps. destruct alone; [constructor|]. pose proof (file_points_ok F (r_hdr r) (proj2 (proj2 (proj2 HAF))) HB EL) as X. rewrite EL in X. exact X. }
  { rewrite LP. destruct alone; lia. }
  exists h, vs, G. split; [exact EB|]. split; [exact SD|].
  destruct (HFIND r E Hsh Hv) as (EF & EV).
  destruct (all_coords_reads F 0 _ r HRd (std_reclen F ST)) as (r2 & d2 & EA & HR2 & EH2).
  split.
  { unfold make_index. rewrite E. cbn [obind]. unfold index_init.
    assert (NV : h_nvlr (r_hdr r) = u_at F 100 4) by exact (f_equal ph_nvlr (proj1 Hsh)).
    destruct (file_vlrs_facts F (proj1 HAF)) as (_ & V2 & _).
    rewrite Hv, NV. replace (Z.to_nat (u_at F 100 4)) with (length (file_vlrs F)) by lia. rewrite EF. cbn [obind].
    assert (K : exists G0, build_save sv pm alone r (r_hdr r) ix = Ok G0 /\ pr_ok G0 = true /\ pr_saved G0 = Some G).
    { unfold build_save. rewrite EA. cbn [obind].
      assert (EJ : job_of pm (r_hdr r) (r_hdr r) = rebase (file_vlrs F) (file_job F pm)).
      { unfold job_of, rebase, file_job. cbn [j_x j_y j_z j_count j_author j_comment j_date j_csz j_maxmem]. destruct (shows_reals F _ Hsh) as (_ & _ & RG). unfold header_ranges in RG.
        injection RG as -> -> -> -> -> ->. rewrite Hv, (shows_npts F _ Hsh). reflexivity. }
      rewrite EJ, build_frame. change (rebase [] (file_job F pm)) with (file_job F pm). rewrite EB. cbn [omap option_map obind fst snd].
      rewrite Hv, skipn_app, skipn_all, Nat.sub_diag. cbn [app skipn].
      rewrite add_vlrs_eq.
      - rewrite Hv. change (lenB (head_vlr h :: vs)) with (Z.of_nat (length (head_vlr h :: vs))).
        assert (SV : save_index sv alone r2 (h_upd_vlrs (r_hdr r) (h_nvlr (r_hdr r) + Z.of_nat (length (head_vlr h :: vs))) (file_vlrs F ++ head_vlr h :: vs)) = Ok G).
        { destruct alone; [now apply save_alone|]. apply (save_session sv F (f_npts F) d2); [exact HR2|]. rewrite EH2. exact EW. }
        rewrite SV. eexists. split; [reflexivity|]. split; reflexivity.
      - rewrite NV. pose proof (vlrs_size_len (head_vlr h :: vs)). pose proof (vlrs_size_len (file_vlrs F)). destruct (file_vlrs_facts F (proj1 HAF)) as (V1 & _). pose proof (u_at_range F 94 2 HB). lia.
      - rewrite NV. pose proof (u_at_range F 100 4 HB). lia. }
    destruct K as (G0 & K1 & K2 & K3). destruct found.
    - destruct (EV eq_refl) as (-> & ->). cbn [obind]. rewrite K1. cbn [obind]. now rewrite K2, K3.
    - cbn [obind]. rewrite K1. cbn [obind]. now rewrite K2, K3. }
  rewrite LP in P1. cbn [List.length] in P1. replace (u_at F 100 4 + Z.of_nat (S (length vs))) with (u_at F 100 4 + 1 + lenB vs) in P1 by lia.
  split; [exact P1|]. split; [exact P2|]. split; [exact P3|]. split; [exact P4|]. intros -> i Hi.
  pose proof (file_points_nth F (r_hdr r) i Hi) as NP. specialize (P5 _ _ NP). rewrite Z2Nat.id in P5 by lia. rewrite P5. cbn [p_data].
  apply firstn_all2. rewrite (file_record_length F i (proj2 (proj2 (proj2 HAF))) HB Hi). lia.
Qed.

(** Writing a file again from the header its reader shows. *)
From Coq Require Import ZArith List Bool Lia String Permutation.
From Coq Require Import ZifyBool ZifyNat.
Import ListNotations.
From Verif Require Import Outcome Bytes Float64 CStr Vlr_Model Schema_Model Schema_Spec Schema_Api Schema_Proofs Header_Model Point_Model Stream_Model Stream_Proofs
  IO_Spec Reader_Model Reader_Spec Reader_Schema Reader_Proofs Reader_Vlrs Reader_Open Reader_Api Reader_Hist Writer_Model Writer_Api Writer_Proofs Writer_File Writer_RT IO_Round.
Local Open Scope Z_scope.
Local Notation length := List.length (only parsing).

Lemma vlrs_end_size n : forall F p, (vlrs_end n F p <= length F)%nat ->
  Z.of_nat (vlrs_end n F p) = Z.of_nat p + vlrs_size (vlrs_at n F p).
Proof.
  induction n as [|n IH]; intros F p H; cbn [vlrs_end vlrs_at] in *.
  - cbn. lia.
  - rewrite (IH F (vlr_end F p) H). cbn [vlrs_size fold_right]. fold (vlrs_size (vlrs_at n F (vlr_end F p))).
    pose proof (vlrs_end_ge n F (vlr_end F p)). unfold vlr_end at 1. unfold vlr_at. cbn [v_data].
    rewrite slice_length by (unfold vlr_end in *; lia). lia.
Qed.
Lemma vlrs_at_sizes n : forall F p, bytes_ok F -> (vlrs_end n F p <= length F)%nat ->
  Forall (fun v => v_size v = Z.of_nat (length (v_data v))) (vlrs_at n F p).
Proof.
  induction n as [|n IH]; intros F p HB H; cbn [vlrs_end vlrs_at] in *; constructor.
  - unfold vlr_at. cbn [v_size v_data]. pose proof (vlrs_end_ge n F (vlr_end F p)).
    rewrite slice_length by (unfold vlr_end in *; lia). unfold vlr_len_at. pose proof (u_at_range F (p + 20) 2 HB). lia.
  - now apply IH.
Qed.
Lemma file_vlrs_facts F : las_file F ->
  Z.of_nat (file_vlrs_end F) = u_at F 94 2 + vlrs_size (file_vlrs F) /\ Z.of_nat (length (file_vlrs F)) = u_at F 100 4 /\
  Forall (fun v => v_size v = Z.of_nat (length (v_data v))) (file_vlrs F).
Proof.
  intros (HB & HL & _ & _ & _ & _ & _ & HV). pose proof (u_at_range F 94 2 HB). pose proof (u_at_range F 100 4 HB).
  unfold file_vlrs_end, file_vlrs. rewrite vlrs_at_length.
  destruct (Z.eq_dec (u_at F 100 4) 0) as [E|E].
  - rewrite E. change (Z.to_nat 0) with 0%nat. cbn [vlrs_at vlrs_end]. unfold vlrs_size. cbn [fold_right]. split; [lia|]. split; [lia|constructor].
  - specialize (HV ltac:(lia)). unfold file_vlrs_end in HV.
    split; [rewrite vlrs_end_size by exact HV; lia|]. split; [lia|]. now apply vlrs_at_sizes.
Qed.

Lemma vlrs_size_app a b : vlrs_size (a ++ b) = vlrs_size a + vlrs_size b.
Proof. induction a as [|v a IH]; [reflexivity|]. cbn [app vlrs_size fold_right]. fold (vlrs_size (a ++ b)). fold (vlrs_size a). rewrite IH. lia. Qed.
Lemma vlrs_size_split f l : vlrs_size (filter (fun v => negb (f v)) l ++ filter f l) = vlrs_size l.
Proof.
  rewrite vlrs_size_app. induction l as [|v l IH]; [reflexivity|]. cbn [filter]. destruct (f v); cbn [negb vlrs_size fold_right];
    unfold vlrs_size in *; cbn [fold_right]; lia.
Qed.
Lemma length_split {A} f (l : list A) : length (filter (fun v => negb (f v)) l ++ filter f l) = length l.
Proof. rewrite app_length. induction l as [|v l IH]; [reflexivity|]. cbn [filter]. destruct (f v); cbn [negb List.length]; lia. Qed.

Lemma geo_crs v : is_geo_vlr v = is_crs v.
Proof.
  unfold is_geo_vlr, is_crs, has_id.
  assert (U : until_nul (vlr_get_user true v) = until_nul (v_user v)).
  { unfold vlr_get_user. cbn [andb]. destruct (_ <? _)%nat; [rewrite until_nul_pad|]; apply until_nul_id, until_nul_no_nul. }
  rewrite U. destruct (zlist_eqb (until_nul (v_user v)) (str "LASF_Projection")), (zlist_eqb (until_nul (v_user v)) (str "liblas")),
    (v_id v =? 34735), (v_id v =? 34736), (v_id v =? 34737), (v_id v =? 2112); reflexivity.
Qed.

(** The VLRs of the file with the georeferencing ones moved to the end. *)
Definition geo_last (l : list vlr) : list vlr := filter (fun v => negb (is_crs v)) l ++ filter is_crs l.

Lemma sinv_plain k s fs : sinv k s fs -> Forall (fun f => f_required f = true) fs -> is_custom s = false.
Proof.
  intros Hi H. destruct (sinv_shows k s fs Hi) as (E & _). unfold schema_fields in E. unfold is_custom.
  destruct (existsb _ _) eqn:X; [|reflexivity]. exfalso. apply existsb_exists in X. destruct X as (d & Hd & Hr).
  rewrite <- E, Forall_forall in H. specialize (H (field_of d) (in_map field_of _ d Hd)). unfold field_of in H. cbn [f_required] in H. rewrite H in Hr. discriminate.
Qed.

(** What makes a file one that is written again as it is. *)
Definition plain_file (F : list Z) : Prop :=
  las_file F /\ no_schema_vlr F /\ f_reclen F = std_length (u_at F 104 1) /\
  Forall (fun v => has_id "laszip encoded" 22204 v = false) (file_vlrs F) /\ 227 <= u_at F 94 2 /\
  f_doff F + 2 < 2 ^ 31 /\ Z.of_nat (file_vlrs_end F) + 4 < 2 ^ 31.
(** Bytes between the VLRs and the first record. *)
Definition gap (F : list Z) : Z := f_doff F - Z.of_nat (file_vlrs_end F).

Lemma plain_written sv F h : plain_file F -> shows_file F h -> h_vlrs h = file_vlrs F ->
  is_custom (h_schema h) = false /\ written_vlrs sv h = geo_last (file_vlrs F) /\ Forall (fun v => is_crs v = true) (h_srs h) /\
  h_srs h = filter is_crs (file_vlrs F).
Proof.
  intros (HF & HN & HL & HZ & _) (_ & _ & _ & _ & Hsr & Hi & _) Hv.
  assert (C : is_custom (h_schema h) = false).
  { apply (sinv_plain 8 _ (layout_of F) Hi). unfold layout_of, extra_fields. unfold f_reclen in HL. rewrite <- HL, Z.eqb_refl, app_nil_r. apply std_req. }
  assert (S : h_srs h = filter is_crs (file_vlrs F)).
  { rewrite Hsr, Hv. apply filter_ext. apply geo_crs. }
  split; [exact C|]. split; [|split; [|exact S]].
  - unfold written_vlrs, geo_last. rewrite C, app_nil_r, S, Hv. f_equal. rewrite Forall_forall in HZ.
    apply filter_ext_in. intros v Hin. rewrite (HZ v Hin). now destruct (is_crs v).
  - rewrite S. apply Forall_forall. intros v Hin. now apply filter_In in Hin.
Qed.

Lemma geo_last_in l v : In v (geo_last l) <-> In v l.
Proof.
  unfold geo_last. rewrite in_app_iff, !filter_In. destruct (is_crs v); cbn [negb]; intuition discriminate.
Qed.

(** the header of the reader, field by field *)
Lemma plain_header xml doy year F : plain_file F ->
  exists r, reader_open xml doy year F = Ok r /\ shows_file F (r_hdr r) /\ header_wf (r_hdr r) /\ h_vlrs (r_hdr r) = file_vlrs F /\
    h_hsize (r_hdr r) = u_at F 94 2 /\ h_doff (r_hdr r) = f_doff F /\ h_vmin (r_hdr r) = u_at F 25 1 /\
    get_record_length (r_hdr r) = f_reclen F /\ (0 <= gap F -> h_pad (r_hdr r) = gap F).
Proof.
  intros HP. pose proof HP as (HF & HN & HL & HZ & Hh & Hd).
  destruct (open_ok xml doy year F HF HN) as (r & E & Hi & Hc & Hdd & Hv & Hs & HW).
  destruct (open_pad xml doy year F HF HN) as (r' & E' & Hpad). rewrite E in E'. injection E' as <-.
  pose proof Hi as (Hsh & _). exists r. split; [exact E|]. split; [exact Hsh|]. split; [exact HW|]. split; [exact Hv|].
  pose proof Hsh as (P & _).
  assert (E1 : h_hsize (r_hdr r) = u_at F 94 2) by exact (f_equal ph_hsize P).
  split; [exact E1|]. split; [exact (shows_doff F _ Hsh)|]. split; [exact (f_equal ph_vmin P)|]. split; [exact (shows_reclen F _ Hsh)|].
  intros Hg. destruct (file_vlrs_facts F HF) as (V1 & V2 & V3).
  assert (NV : h_nvlr (r_hdr r) = u_at F 100 4) by exact (f_equal ph_nvlr P).
  pose proof (vlrs_size_nonneg (file_vlrs F)) as V0. unfold gap in *.
  rewrite (Hpad (vlrs_size (file_vlrs F))).
  - rewrite E1, (shows_doff F _ Hsh), V1. apply Z.mod_small. destruct HF as (HB & _). pose proof (u_at_range F 94 2 HB). lia.
  - rewrite <- Hv. apply vlr_block_ok; rewrite Hv; [lia|].
    destruct HF as (HB & _). pose proof (u_at_range F 94 2 HB). unfold f_doff in *. lia.
Qed.

Lemma plain_fresh sv xml doy year F : plain_file F -> gap F <= 0 ->
  exists r, reader_open xml doy year F = Ok r /\ fresh_ok sv (r_hdr r) /\ las_header (r_hdr r) /\ no_schema_written sv (r_hdr r) /\
    shows_file F (r_hdr r) /\ written_vlrs sv (r_hdr r) = geo_last (file_vlrs F).
Proof.
  intros HP HG. destruct (plain_header xml doy year F HP) as (r & E & Hsh & HW & Hv & E1 & E2 & E3 & E4 & E5).
  exists r. split; [exact E|]. destruct (plain_written sv F (r_hdr r) HP Hsh Hv) as (C & W & S & S').
  pose proof HP as (HF & HN & HL & HZ & Hh & Hd). destruct (file_vlrs_facts F HF) as (V1 & V2 & V3).
  unfold gap in *. pose proof (file_vlrs_wf F HF) as WV.
  assert (SZ : vlrs_size (geo_last (file_vlrs F)) = vlrs_size (file_vlrs F)) by apply vlrs_size_split.
  pose proof (vlrs_size_nonneg (file_vlrs F)) as V0.
  pose proof HF as (HB & _). pose proof (u_at_range F 94 2 HB) as R94. pose proof (u_at_range F 104 1 HB) as R104.
  split; [|split; [|split; [|split; [exact Hsh|exact W]]]].
  - unfold fresh_ok. cbn zeta. rewrite W, SZ. split; [exact HW|]. split; [apply Hsh|]. split; [exact S|].
    split; [intros X; rewrite C in X; discriminate|].
    split.
    { apply Forall_forall. intros v Hin. apply (proj1 (geo_last_in _ _)) in Hin. rewrite Forall_forall in WV, V3. split; [now apply WV|now apply V3]. }
    rewrite E1, E2. split; [exact Hh|]. destruct HF as (_ & _ & _ & _ & _ & H96 & _). unfold f_doff in *. 
    split; [lia|]. split; [lia|]. intros X. rewrite E5 by lia. lia.
  - pose proof Hsh as (P & _). unfold las_header. destruct HF as (_ & _ & Hsig & Hmaj & Hmin & _ & Hfmt & _).
    split; [rewrite <- Hsig; exact (f_equal ph_sig P)|]. split; [rewrite <- Hmaj; exact (f_equal ph_vmaj P)|].
    split; [rewrite E3; exact Hmin|].
    assert (EF : get_format (r_hdr r) = u_at F 104 1) by exact (f_equal ph_format P). rewrite EF.
    split; [lia|]. rewrite E4, HL. pose proof (std_length_small (u_at F 104 1)). lia.
  - unfold no_schema_written. rewrite W. apply Forall_forall. intros v Hin. apply (proj1 (geo_last_in _ _)) in Hin.
    unfold no_schema_vlr in HN. rewrite Forall_forall in HN. now apply HN.
Qed.

Lemma file_record_bytes F k : bytes_ok F -> bytes_ok (file_record F k).
Proof. intros H. now apply slice_bytes. Qed.
Lemma file_record_length F k : complete F -> bytes_ok F -> 0 <= k < f_npts F -> length (file_record F k) = Z.to_nat (f_reclen F).
Proof.
  intros (C1 & C2) HB Hk. specialize (C2 ltac:(lia)). destruct (fields_nonneg F HB) as (D0 & N0 & L0).
  unfold file_record. apply slice_length. assert (k * f_reclen F + f_reclen F <= f_npts F * f_reclen F) by nia. 
  assert (0 <= k * f_reclen F) by nia. lia.
Qed.

(** The points of a file as its reader delivers them. *)
Definition file_points (F : list Z) (h : header) : list point := map (fun d => mkPoint d h) (records_from F 0).
Lemma file_points_length F h : length (file_points F h) = Z.to_nat (f_npts F).
Proof. unfold file_points, records_from. rewrite !map_length, seq_length. f_equal. lia. Qed.
Lemma file_points_nth F h k : 0 <= k < f_npts F -> nth_error (file_points F h) (Z.to_nat k) = Some (mkPoint (file_record F k) h).
Proof.
  intros H. unfold file_points, records_from. rewrite map_map.
  assert (ES : nth_error (seq 0 (Z.to_nat (f_npts F - 0))) (Z.to_nat k) = Some (Z.to_nat k)).
  { rewrite (nth_error_nth' _ 0%nat) by (rewrite seq_length; lia). now rewrite seq_nth by lia. }
  rewrite (map_nth_error _ _ _ ES). do 2 f_equal. f_equal. lia.
Qed.
Lemma file_points_ok F h : complete F -> bytes_ok F -> get_record_length h = f_reclen F ->
  Forall (fun p => point_fits (get_record_length h) p /\ bytes_ok (p_data p)) (file_points F h).
Proof.
  intros HC HB EL. unfold file_points, records_from. rewrite map_map. apply Forall_forall. intros p Hp. apply in_map_iff in Hp. destruct Hp as (i & <- & Hi).
  apply in_seq in Hi. cbn [p_data]. split; [|now apply file_record_bytes].
  pose proof (file_record_length F (0 + Z.of_nat i) HC HB ltac:(lia)) as L. unfold point_fits. cbn [p_data]. rewrite EL. split; [lia|].
  intros X. rewrite X in L. destruct HC as (C1 & _). cbn [List.length] in L. lia.
Qed.

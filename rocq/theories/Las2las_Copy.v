(** Copying points into a new file that has the header of an existing one (the
    general form of Prop_Rewrite.rewrite_main). *)
From Coq Require Import ZArith List Bool Lia String.
From Coq Require Import ZifyBool ZifyNat.
Import ListNotations.
From Verif Require Import Outcome Bytes Float64 Float64_Proofs CStr Vlr_Model Schema_Model Schema_Spec Schema_Api Header_Model Point_Model Stream_Model Stream_Proofs
  IO_Spec Reader_Proofs Reader_Vlrs Reader_Model Reader_Spec Reader_Schema Reader_Api Reader_Open Reader_Hist Writer_Model Writer_Api Writer_Proofs Writer_File Writer_V10 Writer_RT
  Writer_Append IO_Round IO_Extra IO_Samples Prop_Reader Iter_Spec Iter_Model Iter_Proofs Rewrite_Proofs Rewrite_Gap Rewrite_Read Prop_Rewrite Las2las_Spec.
Local Open Scope Z_scope.
Local Notation length := List.length (only parsing).

(** The header of a copy with [n] points. *)
Definition copy_pub (F : list Z) (n : Z) : pubhdr :=
  with_count (with_doff (if u_at F 25 1 =? 0 then with_source (pub_of_file F) (u_at F 6 2) 0 else pub_of_file F) (new_doff F)) n.
Definition copyable (F : list Z) (p : point) : Prop := point_fits (f_reclen F) p /\ bytes_ok (p_data p).

(** The header with other bounds. *)
Definition rebound (h : header) (x0 y0 z0 x1 y1 z1 : f64) : header := set_max (set_min h x0 y0 z0) x1 y1 z1.

Lemma copy_bounds sv xml doy year F x0 y0 z0 x1 y1 z1 : standard F -> gap F <= 2 -> u_at F 25 1 <> 0 \/ gap F <> 1 ->
  exists r, reader_open xml doy year F = Ok r /\
  forall ps, Forall (copyable F) ps -> Z.of_nat (length ps) < 2 ^ 32 ->
  exists G, write_file sv (rebound (r_hdr r) x0 y0 z0 x1 y1 z1) ps = Ok G /\
    pub_of_file G = with_bounds (copy_pub F (Z.of_nat (length ps))) (bits3 (x1, y1, z1)) (bits3 (x0, y0, z0)) /\
    slice G 8 16 = guid_swap (slice F 8 16) /\
    file_vlrs G = map vlr_norm (geo_last (file_vlrs F)) /\
    standard G /\ gap G = new_doff F - Z.of_nat (file_vlrs_end F) /\
    forall k p, nth_error ps k = Some p -> file_record G (Z.of_nat k) = record_of (f_reclen F) p.
Proof.
  intros (HA & HP) HG Hv. pose proof HA as (HF & HN & _ & HC). pose proof HP as (_ & _ & HLn & _ & Hh & Hd).
  pose proof (proj1 HF) as HB. destruct (fields_nonneg F HB) as (_ & N0 & _).
  destruct (file_vlrs_facts F HF) as (V1 & V2 & V3). pose proof (file_vlrs_wf F HF) as WV.
  assert (SZ : vlrs_size (geo_last (file_vlrs F)) = vlrs_size (file_vlrs F)) by apply vlrs_size_split.
  assert (LZ : length (geo_last (file_vlrs F)) = length (file_vlrs F)) by apply length_split.
  pose proof (vlrs_size_nonneg (file_vlrs F)) as V0.
  pose proof (u_at_range F 94 2 HB) as R94. change (pow256 2) with (2 ^ 16) in R94.
  pose proof (u_at_range F 104 1 HB) as R104.
  assert (H104 : u_at F 104 1 <= 3) by apply HF.
  assert (CO : Forall Reader_Vlrs.vlr_consistent (geo_last (file_vlrs F))).
  { apply Forall_forall. intros v Hin. apply (proj1 (geo_last_in _ _)) in Hin. rewrite Forall_forall in WV, V3. split; [exact (WV v Hin)|exact (V3 v Hin)]. }
  destruct (plain_header xml doy year F HP) as (r & E & Hsh & HW & _). exists r. split; [exact E|]. intros ps HPS NPS.
  assert (R107 : 0 <= Z.of_nat (length ps) < 2 ^ 32) by lia.
  assert (FP : Forall (point_fits (f_reclen F)) ps) by (eapply Forall_impl; [|exact HPS]; intros x [Hx _]; exact Hx).
  set (L := geo_last (file_vlrs F)) in *. set (hb := rebound (r_hdr r) x0 y0 z0 x1 y1 z1).
  assert (HWb : header_wf hb) by exact HW.
  (* the layout *)
  assert (K : exists p X T,
     write_file sv hb ps = Ok (laid_out (new_header hb L p (new_doff F) (Z.of_nat (length ps))) L X ps T) /\
     Z.of_nat (length X) = new_doff F - Z.of_nat (file_vlrs_end F) /\ bytes_ok X /\ bytes_ok T).
  { destruct (Z_le_gt_dec (gap F) 0) as [G0|G0].
    - destruct (plain_fresh sv xml doy year F HP G0) as (r' & E' & HFr & HLa & HNs & _ & W). rewrite E in E'. apply Writer_Append.Ok_inj in E'. subst r'. fold L in W.
      pose proof Hsh as (P & _).
      assert (E1 : h_hsize (r_hdr r) = u_at F 94 2) by exact (f_equal ph_hsize P).
      assert (E3 : h_vmin (r_hdr r) = u_at F 25 1) by exact (f_equal ph_vmin P).
      assert (EL : get_record_length (r_hdr r) = f_reclen F) by exact (f_equal ph_reclen P).
      exists 0, (pad_sig (u_at F 25 1)), [].
      assert (ED : new_doff F = fresh_doff sv hb).
      { unfold new_doff, fresh_doff, gap in *. change (written_vlrs sv hb) with (written_vlrs sv (r_hdr r)). change (h_hsize hb) with (h_hsize (r_hdr r)). change (h_vmin hb) with (h_vmin (r_hdr r)). rewrite W, SZ, E1, E3. unfold pad_sig. destruct (u_at F 25 1 =? 0); cbn [List.length]; lia. }
      split.
      + rewrite write_file_image; [|exact HFr|change (get_record_length hb) with (get_record_length (r_hdr r)); rewrite EL; exact FP|lia].
        unfold file_image, laid_out, file_header, fresh_header, new_header, fresh_tail. change (written_vlrs sv hb) with (written_vlrs sv (r_hdr r)). change (h_vmin hb) with (h_vmin (r_hdr r)). rewrite W, E3, <- ED, app_nil_r, <- app_assoc. reflexivity.
      + split; [unfold new_doff, pad_sig, gap in *; destruct (u_at F 25 1 =? 0); cbn [List.length]; lia|].
        split; [unfold pad_sig; destruct (_ =? _); repeat constructor; unfold is_byte; lia|constructor].
    - destruct (plain_gap sv xml doy year F HP ltac:(lia)) as (r' & E' & HGo & _ & W). rewrite E in E'. apply Writer_Append.Ok_inj in E'. subst r'. fold L in W.
      pose proof Hsh as (P & _).
      assert (E1 : h_hsize (r_hdr r) = u_at F 94 2) by exact (f_equal ph_hsize P).
      assert (E2 : h_doff (r_hdr r) = f_doff F) by exact (f_equal ph_doff P).
      assert (E3 : h_vmin (r_hdr r) = u_at F 25 1) by exact (f_equal ph_vmin P).
      assert (EL : get_record_length (r_hdr r) = f_reclen F) by exact (f_equal ph_reclen P).
      eexists (gap F), (gap_bytes hb (gap F)), _.
      assert (ED : new_doff F = h_doff hb).
      { change (h_doff hb) with (h_doff (r_hdr r)). rewrite E2. unfold new_doff, gap in *. destruct (Z.eqb_spec (u_at F 25 1) 0); lia. }
      split.
      + rewrite (gap_image sv hb (gap F)); [|exact HGo|lia|change (h_vmin hb) with (h_vmin (r_hdr r)); lia|change (get_record_length hb) with (get_record_length (r_hdr r)); rewrite EL; exact FP|lia].
        unfold laid_out, gap_header, new_header. change (written_vlrs sv hb) with (written_vlrs sv (r_hdr r)). rewrite W, <- ED. reflexivity.
      + split; [rewrite ED; change (h_doff hb) with (h_doff (r_hdr r)); rewrite E2; unfold gap_bytes; change (h_vmin hb) with (h_vmin (r_hdr r)); rewrite E3; unfold gap in *; destruct (Z.eqb_spec (u_at F 25 1) 0); [cbn [List.length]|rewrite repeat_length]; lia|].
        split; [unfold gap_bytes; destruct (_ =? _); [repeat constructor; unfold is_byte; lia|]|]; apply repeat_bytes; unfold is_byte; lia. }
  destruct K as (p & X & T & EW & LX & BX & BT). set (N := Z.of_nat (length ps)) in *.
  set (H := new_header hb L p (new_doff F) N) in *.
  exists (laid_out H L X ps T).
  split; [exact EW|].
  pose proof Hsh as (P & PG & PC & _).
  assert (E1 : h_hsize (r_hdr r) = u_at F 94 2) by exact (f_equal ph_hsize P).
  assert (E3 : h_vmin (r_hdr r) = u_at F 25 1) by exact (f_equal ph_vmin P).
  assert (EF : get_format (r_hdr r) = u_at F 104 1) by exact (f_equal ph_format P).
  assert (EL : get_record_length (r_hdr r) = f_reclen F) by exact (f_equal ph_reclen P).
  assert (D1 : 0 <= new_doff F < 2 ^ 32) by (unfold new_doff, gap, f_doff in *; pose proof (u_at_range F 96 4 HB); destruct (u_at F 25 1 =? 0); lia).
  assert (LO : layout_ok H L X ps).
  { unfold layout_ok. split.
    { unfold H, new_header. apply wf_set_npts, wf_set_doff, wf_set_pad, wf_set_vlrs; auto.
      - eapply Forall_impl; [|exact CO]. intros v [Hw _]. exact Hw.
      - unfold in_unsigned. pose proof (u_at_range F 100 4 HB) as R. change (pow256 4) with (2 ^ 32) in R. lia. }
    split; [exact PC|]. change (get_format H) with (get_format (r_hdr r)). change (get_record_length H) with (get_record_length (r_hdr r)).
    change (h_hsize H) with (h_hsize (r_hdr r)). change (h_nvlr H) with (Z.of_nat (length L)).
    change (h_doff H) with (new_doff F mod 2 ^ 32). change (h_npts H) with (N mod 2 ^ 32). rewrite !Z.mod_small by lia.
    split; [lia|]. split; [exact CO|]. split; [lia|]. split; [reflexivity|]. split; [lia|]. split; [lia|].
    rewrite EL. split; [exact FP|apply HC]. }
  destruct (laid_out_read H L X ps T LO) as (Q1 & Q2 & Q3 & Q4 & Q5 & Q6 & Q7). cbn zeta in *.
  set (G := laid_out H L X ps T) in *.
  assert (EP : pub_of_file G = with_bounds (copy_pub F N) (bits3 (x1, y1, z1)) (bits3 (x0, y0, z0))).
  { rewrite Q1. unfold copy_pub. unfold stored_view. change (h_vmin H) with (h_vmin (r_hdr r)). rewrite E3.
    assert (PH : pub_of_header H = with_bounds (with_count (with_doff (pub_of_file F) (new_doff F)) N) (bits3 (x1, y1, z1)) (bits3 (x0, y0, z0))).
    { transitivity (with_bounds (with_count (with_doff (pub_of_header (r_hdr r)) (new_doff F)) N) (bits3 (x1, y1, z1)) (bits3 (x0, y0, z0))); [|now rewrite P].
      assert (NV : h_nvlr (r_hdr r) = Z.of_nat (length L)) by (rewrite LZ, V2; exact (f_equal ph_nvlr P)).
      change (pub_of_header H) with (mkPub (get_file_signature (r_hdr r)) (h_srcid (r_hdr r)) (h_reserved (r_hdr r)) (h_vmaj (r_hdr r)) (h_vmin (r_hdr r))
        (get_system_id false (r_hdr r)) (get_software_id false (r_hdr r)) (h_doy (r_hdr r)) (h_year (r_hdr r)) (h_hsize (r_hdr r)) (new_doff F mod 2 ^ 32)
        (Z.of_nat (length L)) (get_format (r_hdr r)) (get_record_length (r_hdr r)) (N mod 2 ^ 32) (firstn 5 (h_byret (r_hdr r)))
        (bits3 (h_scale (r_hdr r))) (bits3 (h_offset (r_hdr r))) (bits3 (x1, y1, z1)) (bits3 (x0, y0, z0))).
      rewrite !Z.mod_small by lia. rewrite <- NV. reflexivity. }
    destruct (Z.eqb_spec (u_at F 25 1) 0) as [V|V]; [|exact PH].
    assert (HR : h_reserved H = u_at F 6 2) by exact (f_equal ph_reserved P).
    transitivity (with_source (pub_of_header H) (h_reserved H) 0); [reflexivity|]. rewrite PH, HR. reflexivity. }
  assert (REC : forall k p, nth_error ps k = Some p -> file_record G (Z.of_nat k) = record_of (f_reclen F) p).
  { intros k q Hk. rewrite <- EL. exact (Q7 k q Hk). }
  split; [exact EP|].
  split; [rewrite Q2; change (h_guid H) with (h_guid (r_hdr r)); now rewrite PG|].
  split; [exact Q3|].
  split; [|split].
  2:{ unfold gap, f_doff. assert (X96 : u_at G 96 4 = new_doff F) by (exact (f_equal ph_doff EP)). rewrite X96, Q4.
      change (h_hsize H) with (h_hsize (r_hdr r)). rewrite E1, SZ. lia. }
  2:{ exact REC. }
  assert (FE : forall A (f : pubhdr -> A), (forall p d, f (with_doff p d) = f p) -> (forall p n, f (with_count p n) = f p) -> (forall p a b, f (with_source p a b) = f p) -> (forall p a b, f (with_bounds p a b) = f p) -> f (pub_of_file G) = f (pub_of_file F)).
  { intros A f F1 F3 F2 F4. rewrite EP. unfold copy_pub. rewrite F4, F3, F1. destruct (u_at F 25 1 =? 0); [apply F2|reflexivity]. }
  assert (G94 : u_at G 94 2 = u_at F 94 2) by (apply (FE _ ph_hsize); reflexivity).
  assert (G104 : u_at G 104 1 = u_at F 104 1) by (apply (FE _ ph_format); reflexivity).
  assert (G105 : u_at G 105 2 = u_at F 105 2) by (apply (FE _ ph_reclen); reflexivity).
  assert (G96 : u_at G 96 4 = new_doff F) by (exact (f_equal ph_doff EP)).
  assert (NV : Forall (fun v => has_id "liblas" 7 v = false) (file_vlrs G)).
  { rewrite Q3. apply Forall_map. apply Forall_forall. intros v Hin. rewrite has_id_norm. apply (proj1 (geo_last_in _ _)) in Hin.
    unfold no_schema_vlr in HN. rewrite Forall_forall in HN. now apply HN. }
  assert (LF : las_file G).
  { split.
    { unfold G, laid_out. apply then_at_bytes; [apply hdr_bytes_bytes, LO|]. repeat apply bytes_app; try assumption.
      - unfold vlrs_image. apply bytes_concat. apply Forall_map. eapply Forall_impl; [|exact CO]. intros v [Hw _]. now apply vlr_image_bytes.
      - unfold records. apply bytes_concat. apply Forall_map. eapply Forall_impl; [|exact HPS].
        intros q [_ Hq]. now apply bytes_firstn. }
    split; [unfold G, laid_out; destruct (then_at_split (hdr_bytes H) (Z.to_nat (h_hsize H)) (vlrs_image L ++ X ++ records (get_record_length H) ps ++ T)) as [rest ->];
            rewrite app_length, hdr_bytes_len by apply LO; lia|].
    split; [rewrite <- (proj1 (proj2 (proj2 HF))); apply (FE _ ph_sig); reflexivity|].
    split; [rewrite <- (proj1 (proj2 (proj2 (proj2 HF)))); apply (FE _ ph_vmaj); reflexivity|].
    assert (G25 : u_at G 25 1 = u_at F 25 1) by (apply (FE _ ph_vmin); reflexivity).
    split; [rewrite G25; apply HF|]. split; [unfold new_doff, f_doff in G96; rewrite G94, G96; destruct HF as (_ & _ & _ & _ & _ & H96 & _); destruct (u_at F 25 1 =? 0); lia|].
    split; [rewrite G104; apply HF|exact Q5]. }
  split.
  - split; [exact LF|]. split; [exact NV|]. split; [|exact Q6].
    destruct HA as (_ & _ & FS & _). unfold finite_scaling in *.
    pose proof (FE _ ph_scale (fun _ _ => eq_refl) (fun _ _ => eq_refl) (fun _ _ _ => eq_refl) (fun _ _ _ => eq_refl)) as X1. pose proof (FE _ ph_offset (fun _ _ => eq_refl) (fun _ _ => eq_refl) (fun _ _ _ => eq_refl) (fun _ _ _ => eq_refl)) as X2.
    cbn [ph_scale ph_offset pub_of_file] in X1, X2. injection X1 as Y1 Y2 Y3. injection X2 as Y4 Y5 Y6.
    apply Forall_forall. intros o Ho. rewrite Forall_forall in FS. specialize (FS o Ho). cbv beta in FS.
    assert (EO : u_at G o 8 = u_at F o 8).
    { cbn [In] in Ho. decompose [or] Ho; subst; (assumption || contradiction). }
    now rewrite EO.
  - split; [exact LF|]. split; [exact NV|]. split; [unfold f_reclen; now rewrite G104, G105|].
    split.
    { rewrite Q3. apply Forall_map. apply Forall_forall. intros v Hin. rewrite has_id_norm. apply (proj1 (geo_last_in _ _)) in Hin.
      destruct HP as (_ & _ & _ & HZ & _). rewrite Forall_forall in HZ. now apply HZ. }
    split; [now rewrite G94|]. unfold f_doff at 1. rewrite G96, Q4. change (h_hsize H) with (h_hsize (r_hdr r)). rewrite E1, SZ.
    unfold new_doff, f_doff in *. destruct (u_at F 25 1 =? 0); lia.
Qed.

Lemma copy_main sv xml doy year F : standard F -> gap F <= 2 -> u_at F 25 1 <> 0 \/ gap F <> 1 ->
  exists r, reader_open xml doy year F = Ok r /\
  forall ps, Forall (copyable F) ps -> Z.of_nat (length ps) < 2 ^ 32 ->
  exists G, write_file sv (r_hdr r) ps = Ok G /\
    pub_of_file G = copy_pub F (Z.of_nat (length ps)) /\
    slice G 8 16 = guid_swap (slice F 8 16) /\
    file_vlrs G = map vlr_norm (geo_last (file_vlrs F)) /\
    standard G /\ gap G = new_doff F - Z.of_nat (file_vlrs_end F) /\
    forall k p, nth_error ps k = Some p -> file_record G (Z.of_nat k) = record_of (f_reclen F) p.
Proof.
  intros HS HG Hv. pose proof HS as (_ & HP). destruct (plain_header xml doy year F HP) as (r & E & Hsh & _). exists r. split; [exact E|]. intros ps HPS N.
  destruct (h_min (r_hdr r)) as [[x0 y0] z0] eqn:E0. destruct (h_max (r_hdr r)) as [[x1 y1] z1] eqn:E1.
  destruct (copy_bounds sv xml doy year F x0 y0 z0 x1 y1 z1 HS HG Hv) as (r' & E' & C). rewrite E in E'. apply Writer_Append.Ok_inj in E'. subst r'.
  destruct (C ps HPS N) as (G & W & P & R).
  assert (EB : rebound (r_hdr r) x0 y0 z0 x1 y1 z1 = r_hdr r) by (revert E0 E1; destruct (r_hdr r); unfold rebound, set_max, set_min; cbn; intros -> ->; reflexivity).
  rewrite EB in W. exists G. split; [exact W|]. split; [|exact R]. rewrite P.
  destruct Hsh as (PP & _). pose proof (f_equal ph_max PP) as P1. pose proof (f_equal ph_min PP) as P0. cbn [ph_max ph_min pub_of_header] in P0, P1.
  rewrite E0 in P0. rewrite E1 in P1. rewrite P0, P1. unfold copy_pub. destruct (u_at F 25 1 =? 0); reflexivity.
Qed.

(** Writing the header of a file again with more VLRs. *)
From Coq Require Import ZArith List Bool Lia String.
From Coq Require Import ZifyBool ZifyNat.
Import ListNotations.
From Verif Require Import Outcome Bytes Float64 Float64_Proofs CStr Vlr_Model Schema_Model Schema_Spec Schema_Api Header_Model Point_Model Stream_Model Stream_Proofs
  IO_Spec Reader_Proofs Reader_Vlrs Reader_Model Reader_Spec Reader_Schema Reader_Api Reader_Open Reader_Hist Writer_Model Writer_Api Writer_Proofs Writer_File Writer_V10 Writer_RT
  IO_Round IO_Extra IO_Samples Prop_Reader Iter_Spec Iter_Model Iter_Proofs Rewrite_Proofs Rewrite_Gap Rewrite_Read Prop_Rewrite.
Local Open Scope Z_scope.
Local Notation length := List.length (only parsing).

(** The same header block with other start of the records, VLR and point count. *)
Definition with_counts (p : pubhdr) (d v n : Z) : pubhdr :=
  mkPub (ph_sig p) (ph_source p) (ph_reserved p) (ph_vmaj p) (ph_vmin p) (ph_sysid p) (ph_swid p) (ph_doy p) (ph_year p)
        (ph_hsize p) d v (ph_format p) (ph_reclen p) n (ph_returns p)
        (ph_scale p) (ph_offset p) (ph_max p) (ph_min p).
(** VLRs that are neither georeferencing, compression nor layout records. *)
Definition neutral (v : vlr) : Prop := is_crs v = false /\ has_id "laszip encoded" 22204 v = false /\ has_id "liblas" 7 v = false.
Definition grown (F : list Z) (N : list vlr) : list vlr := filter (fun v => negb (is_crs v)) (file_vlrs F) ++ N ++ filter is_crs (file_vlrs F).
Definition grown_doff (F : list Z) (N : list vlr) : Z := Z.of_nat (file_vlrs_end F) + vlrs_size N + (if u_at F 25 1 =? 0 then 2 else 0).
Lemma grown_in F N v : In v (grown F N) <-> In v (file_vlrs F) \/ In v N.
Proof. unfold grown. rewrite !in_app_iff, !filter_In. destruct (is_crs v); cbn [negb]; intuition discriminate. Qed.
Lemma vlrs_size_len l : 54 * Z.of_nat (length l) <= vlrs_size l.
Proof. induction l as [|v l IH]; cbn [vlrs_size fold_right List.length]; [lia|]. fold (vlrs_size l). lia. Qed.

Theorem grow sv xml doy year F N : standard F -> Forall Reader_Vlrs.vlr_consistent N -> Forall neutral N -> gap F < vlrs_size N ->
  Z.of_nat (file_vlrs_end F) + vlrs_size N + 4 < 2 ^ 31 ->
  exists r, reader_open xml doy year F = Ok r /\ reads (opened F) r /\ shows_file F (r_hdr r) /\ h_vlrs (r_hdr r) = file_vlrs F /\
  forall ps, Forall (fun p => point_fits (f_reclen F) p /\ bytes_ok (p_data p)) ps -> Z.of_nat (length ps) < 2 ^ 32 ->
  exists G, write_file sv (h_upd_vlrs (r_hdr r) (h_nvlr (r_hdr r) + Z.of_nat (length N)) (file_vlrs F ++ N)) ps = Ok G /\
    pub_of_file G = with_counts (if u_at F 25 1 =? 0 then with_source (pub_of_file F) (u_at F 6 2) 0 else pub_of_file F)
      (grown_doff F N) (u_at F 100 4 + Z.of_nat (length N)) (Z.of_nat (length ps)) /\
    slice G 8 16 = guid_swap (slice F 8 16) /\
    file_vlrs G = map vlr_norm (grown F N) /\ standard G /\
    forall k p, nth_error ps k = Some p -> file_record G (Z.of_nat k) = firstn (Z.to_nat (f_reclen F)) (p_data p).
Proof.
  intros (HA & HP) CN NN HG HS. pose proof HA as (HF & HN & _ & HC). pose proof HP as (_ & _ & HLn & HZ & Hh & Hd).
  destruct (plain_header xml doy year F HP) as (r & E & Hsh & HW & Hv & E1 & E2 & E3 & E4 & E5).
  destruct (open_reads xml doy year F HA) as (r' & E' & HR & _). rewrite E in E'. injection E' as <-.
  exists r. split; [exact E|]. split; [exact HR|]. split; [exact Hsh|]. split; [exact Hv|]. intros ps HPS LPS.
  pose proof (proj1 HF) as HB. destruct (fields_nonneg F HB) as (_ & N0 & _).
  destruct (file_vlrs_facts F HF) as (V1 & V2 & V3). pose proof (file_vlrs_wf F HF) as WV.
  destruct (plain_written sv F (r_hdr r) HP Hsh Hv) as (C & _ & SR & SR').
  pose proof (vlrs_size_nonneg (file_vlrs F)) as V0. pose proof (vlrs_size_nonneg N) as VN0.
  pose proof (u_at_range F 94 2 HB) as R94. change (pow256 2) with (2 ^ 16) in R94.
  pose proof (u_at_range F 104 1 HB) as R104. assert (H104 : u_at F 104 1 <= 3) by apply HF.
  pose proof (u_at_range F 100 4 HB) as R100. change (pow256 4) with (2 ^ 32) in R100.
  set (H' := h_upd_vlrs (r_hdr r) (h_nvlr (r_hdr r) + Z.of_nat (length N)) (file_vlrs F ++ N)).
  set (L := grown F N).
  assert (W : written_vlrs sv H' = L).
  { unfold written_vlrs. change (h_schema H') with (h_schema (r_hdr r)). change (h_srs H') with (h_srs (r_hdr r)). change (h_vlrs H') with (file_vlrs F ++ N). rewrite C, SR', app_nil_r.
    unfold L, grown. rewrite filter_app, <- app_assoc. f_equal; [|f_equal].
    - rewrite Forall_forall in HZ. apply filter_ext_in. intros v Hin. rewrite (HZ v Hin). now destruct (is_crs v).
    - clear -NN. induction NN as [|v l (A1 & A2 & A3) NN IH]; [reflexivity|]. cbn [filter]. rewrite A1, A2. exact (f_equal (cons v) IH). }
  assert (SZ : vlrs_size L = vlrs_size (file_vlrs F) + vlrs_size N).
  { unfold L, grown. rewrite !vlrs_size_app. rewrite <- (vlrs_size_split is_crs (file_vlrs F)), vlrs_size_app. lia. }
  assert (LZ : Z.of_nat (length L) = u_at F 100 4 + Z.of_nat (length N)).
  { unfold L, grown. rewrite !app_length. pose proof (length_split is_crs (file_vlrs F)) as X. rewrite app_length in X. lia. }
  assert (CO : Forall Reader_Vlrs.vlr_consistent L).
  { apply Forall_forall. intros v Hin. apply (proj1 (grown_in _ _ _)) in Hin. rewrite Forall_forall in WV, V3, CN. destruct Hin as [Hin|Hin]; [|now apply CN]. split; [exact (WV v Hin)|exact (V3 v Hin)]. }
  pose proof (vlrs_size_len L) as LL.
  assert (FO : fresh_ok sv H').
  { unfold fresh_ok. cbn zeta. rewrite W, SZ. split.
    { unfold H'. apply wf_set_vlrs; auto.
      - apply Forall_app. split; [exact WV|]. eapply Forall_impl; [|exact CN]. intros v [Hw _]. exact Hw.
      - unfold in_unsigned. assert (EN : h_nvlr (r_hdr r) = u_at F 100 4) by exact (f_equal ph_nvlr (proj1 Hsh)). rewrite EN. lia. }
    split; [apply Hsh|]. split; [exact SR|]. split; [intros X; unfold H' in X; cbn [h_schema h_upd_vlrs] in X; rewrite C in X; discriminate|].
    split; [eapply Forall_impl; [|exact CO]; intros v [X1 X2]; now split|].
    change (h_hsize H') with (h_hsize (r_hdr r)). change (h_doff H') with (h_doff (r_hdr r)). change (h_pad H') with (h_pad (r_hdr r)). rewrite E1, E2.
    split; [exact Hh|]. destruct HF as (_ & _ & _ & _ & _ & H96 & _). unfold gap, f_doff in *. split; [lia|]. split; [lia|]. intros X. lia. }
  assert (EW : write_file sv H' ps = Ok (file_image sv H' ps)).
  { apply write_file_image; [exact FO| |exact LPS]. change (get_record_length H') with (get_record_length (r_hdr r)). rewrite E4. eapply Forall_impl; [|exact HPS]. cbv beta. tauto. }
  exists (file_image sv H' ps). split; [exact EW|].
  assert (ED : fresh_doff sv H' = grown_doff F N).
  { unfold fresh_doff, grown_doff. rewrite W, SZ. change (h_hsize H') with (h_hsize (r_hdr r)). change (h_vmin H') with (h_vmin (r_hdr r)). rewrite E1, E3, V1. unfold pad_sig. destruct (u_at F 25 1 =? 0); cbn [List.length]; lia. }
  assert (DB : 0 <= grown_doff F N < 2 ^ 32) by (unfold grown_doff; destruct (_ =? _); lia).
  set (X := pad_sig (u_at F 25 1)). set (H := new_header (r_hdr r) L 0 (grown_doff F N) (Z.of_nat (length ps))).
  assert (EI : file_image sv H' ps = laid_out H L X ps []).
  { unfold file_image, laid_out, file_header, fresh_header, fresh_tail. rewrite W, ED. change (h_vmin H') with (h_vmin (r_hdr r)). rewrite E3, app_nil_r, <- app_assoc. reflexivity. }
  assert (LX : Z.of_nat (length X) = grown_doff F N - (u_at F 94 2 + vlrs_size L)).
  { unfold X, pad_sig, grown_doff. rewrite SZ, V1. destruct (_ =? _); cbn [List.length]; lia. }
  pose proof Hsh as (P & PG & PC & _).
  assert (EF : get_format (r_hdr r) = u_at F 104 1) by exact (f_equal ph_format P).
  assert (LO : layout_ok H L X ps).
  { unfold layout_ok. split.
    { unfold H, new_header. apply wf_set_npts, wf_set_doff, wf_set_pad, wf_set_vlrs; auto.
      - eapply Forall_impl; [|exact CO]. intros v [Hw _]. exact Hw.
      - unfold in_unsigned. lia. }
    split; [exact PC|]. change (get_format H) with (get_format (r_hdr r)). change (get_record_length H) with (get_record_length (r_hdr r)).
    change (h_hsize H) with (h_hsize (r_hdr r)). change (h_nvlr H) with (Z.of_nat (length L)).
    change (h_doff H) with (grown_doff F N mod 2 ^ 32). change (h_npts H) with (Z.of_nat (length ps) mod 2 ^ 32). rewrite !Z.mod_small by lia.
    split; [lia|]. split; [exact CO|]. split; [lia|]. split; [reflexivity|]. split; [lia|]. split; [lia|].
    rewrite E4. split; [eapply Forall_impl; [|exact HPS]; cbv beta; tauto|]. apply HC. }
  destruct (laid_out_read H L X ps [] LO) as (Q1 & Q2 & Q3 & Q4 & Q5 & Q6 & Q7). cbn zeta in *. rewrite EI. clear EW EI.
  set (G := laid_out H L X ps []) in *.
  assert (EP : pub_of_file G = with_counts (if u_at F 25 1 =? 0 then with_source (pub_of_file F) (u_at F 6 2) 0 else pub_of_file F)
      (grown_doff F N) (u_at F 100 4 + Z.of_nat (length N)) (Z.of_nat (length ps))).
  { rewrite Q1. unfold stored_view. change (h_vmin H) with (h_vmin (r_hdr r)). rewrite E3.
    assert (PH : pub_of_header H = with_counts (pub_of_file F) (grown_doff F N) (u_at F 100 4 + Z.of_nat (length N)) (Z.of_nat (length ps))).
    { transitivity (with_counts (pub_of_header (r_hdr r)) (grown_doff F N) (u_at F 100 4 + Z.of_nat (length N)) (Z.of_nat (length ps))); [|now rewrite P].
      change (pub_of_header H) with (mkPub (get_file_signature (r_hdr r)) (h_srcid (r_hdr r)) (h_reserved (r_hdr r)) (h_vmaj (r_hdr r)) (h_vmin (r_hdr r))
        (get_system_id false (r_hdr r)) (get_software_id false (r_hdr r)) (h_doy (r_hdr r)) (h_year (r_hdr r)) (h_hsize (r_hdr r)) (grown_doff F N mod 2 ^ 32)
        (Z.of_nat (length L)) (get_format (r_hdr r)) (get_record_length (r_hdr r)) (Z.of_nat (length ps) mod 2 ^ 32) (firstn 5 (h_byret (r_hdr r)))
        (bits3 (h_scale (r_hdr r))) (bits3 (h_offset (r_hdr r))) (bits3 (h_max (r_hdr r))) (bits3 (h_min (r_hdr r)))).
      rewrite !Z.mod_small by lia. rewrite LZ. reflexivity. }
    destruct (Z.eqb_spec (u_at F 25 1) 0) as [V|V]; [|exact PH].
    assert (HRv : h_reserved H = u_at F 6 2) by exact (f_equal ph_reserved P).
    transitivity (with_source (pub_of_header H) (h_reserved H) 0); [reflexivity|]. rewrite PH, HRv. reflexivity. }
  split; [exact EP|].
  split; [rewrite Q2; change (h_guid H) with (h_guid (r_hdr r)); now rewrite PG|].
  split; [exact Q3|].
  split; [|intros k p Hk; rewrite (Q7 k p Hk); unfold record_of; change (get_record_length H) with (get_record_length (r_hdr r)); now rewrite E4].
  assert (FE : forall A (f : pubhdr -> A), (forall p d v n, f (with_counts p d v n) = f p) -> (forall p a b, f (with_source p a b) = f p) -> f (pub_of_file G) = f (pub_of_file F)).
  { intros A f F1 F2. rewrite EP, F1. destruct (u_at F 25 1 =? 0); [apply F2|reflexivity]. }
  assert (G94 : u_at G 94 2 = u_at F 94 2) by (apply (FE _ ph_hsize); reflexivity).
  assert (G104 : u_at G 104 1 = u_at F 104 1) by (apply (FE _ ph_format); reflexivity).
  assert (G105 : u_at G 105 2 = u_at F 105 2) by (apply (FE _ ph_reclen); reflexivity).
  assert (G96 : u_at G 96 4 = grown_doff F N) by (exact (f_equal ph_doff EP)).
  assert (NV : Forall (fun v => has_id "liblas" 7 v = false) (file_vlrs G)).
  { rewrite Q3. apply Forall_map. apply Forall_forall. intros v Hin. rewrite has_id_norm. apply (proj1 (grown_in _ _ _)) in Hin.
    unfold no_schema_vlr in HN. rewrite Forall_forall in HN, NN. destruct Hin as [Hin|Hin]; [now apply HN|apply (NN v Hin)]. }
  assert (LF : las_file G).
  { split.
    { unfold G, laid_out. apply then_at_bytes; [apply hdr_bytes_bytes, LO|]. repeat apply bytes_app.
      - unfold vlrs_image. apply bytes_concat. apply Forall_map. eapply Forall_impl; [|exact CO]. intros v [Hw _]. now apply vlr_image_bytes.
      - unfold X, pad_sig. destruct (_ =? _); repeat constructor; unfold is_byte; lia.
      - unfold records. apply bytes_concat. apply Forall_map. eapply Forall_impl; [|exact HPS].
        cbv beta. intros q [_ Hq]. now apply bytes_firstn.
      - constructor. }
    split; [unfold G, laid_out; destruct (then_at_split (hdr_bytes H) (Z.to_nat (h_hsize H)) (vlrs_image L ++ X ++ records (get_record_length H) ps ++ [])) as [rest ->];
            rewrite app_length, hdr_bytes_len by apply LO; lia|].
    split; [rewrite <- (proj1 (proj2 (proj2 HF))); apply (FE _ ph_sig); reflexivity|].
    split; [rewrite <- (proj1 (proj2 (proj2 (proj2 HF)))); apply (FE _ ph_vmaj); reflexivity|].
    assert (G25 : u_at G 25 1 = u_at F 25 1) by (apply (FE _ ph_vmin); reflexivity).
    split; [rewrite G25; apply HF|]. split; [rewrite G94, G96; unfold grown_doff; destruct (u_at F 25 1 =? 0); lia|].
    split; [rewrite G104; apply HF|exact Q5]. }
  split.
  - split; [exact LF|]. split; [exact NV|]. split; [|exact Q6].
    destruct HA as (_ & _ & FS & _). unfold finite_scaling in *.
    pose proof (FE _ ph_scale (fun _ _ _ _ => eq_refl) (fun _ _ _ => eq_refl)) as X1. pose proof (FE _ ph_offset (fun _ _ _ _ => eq_refl) (fun _ _ _ => eq_refl)) as X2.
    cbn [ph_scale ph_offset pub_of_file] in X1, X2. injection X1 as Y1 Y2 Y3. injection X2 as Y4 Y5 Y6.
    apply Forall_forall. intros o Ho. rewrite Forall_forall in FS. specialize (FS o Ho). cbv beta in FS.
    assert (EO : u_at G o 8 = u_at F o 8).
    { cbn [In] in Ho. decompose [or] Ho; subst; (assumption || contradiction). }
    now rewrite EO.
  - split; [exact LF|]. split; [exact NV|]. split; [unfold f_reclen; now rewrite G104, G105|].
    split.
    { rewrite Q3. apply Forall_map. apply Forall_forall. intros v Hin. rewrite has_id_norm. apply (proj1 (grown_in _ _ _)) in Hin.
      rewrite Forall_forall in HZ, NN. destruct Hin as [Hin|Hin]; [now apply HZ|apply (NN v Hin)]. }
    split; [now rewrite G94|]. unfold f_doff at 1. rewrite G96, Q4. change (h_hsize H) with (h_hsize (r_hdr r)). rewrite E1, SZ.
    unfold grown_doff in *. destruct (u_at F 25 1 =? 0); lia.
Qed.

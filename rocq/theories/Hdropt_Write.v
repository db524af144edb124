(** A file written from any header without custom dimensions. *)
From Coq Require Import ZArith List Bool Lia String.
From Coq Require Import ZifyBool ZifyNat.
Import ListNotations.
From Verif Require Import Outcome Bytes Float64 Float64_Proofs CStr Vlr_Model Schema_Model Schema_Spec Schema_Api Header_Model Point_Model Stream_Model Stream_Proofs
  IO_Spec Reader_Proofs Reader_Vlrs Reader_Model Reader_Spec Reader_Schema Reader_Api Reader_Open Reader_Hist Writer_Model Writer_Api Writer_Proofs Writer_File Writer_V10 Writer_RT
  Writer_Append IO_Round IO_Extra IO_Samples Prop_Reader Iter_Spec Iter_Model Iter_Proofs Rewrite_Proofs Rewrite_Gap Rewrite_Read Prop_Rewrite Las2las_Spec Las2las_Model Las2las_File.
Local Open Scope Z_scope.
Local Notation length := List.length (only parsing).

(** Header values with another number of VLRs. *)
Definition with_nvlr (p : pubhdr) (n : Z) : pubhdr :=
  mkPub (ph_sig p) (ph_source p) (ph_reserved p) (ph_vmaj p) (ph_vmin p) (ph_sysid p) (ph_swid p) (ph_doy p) (ph_year p)
        (ph_hsize p) (ph_doff p) n (ph_format p) (ph_reclen p) (ph_npts p) (ph_returns p)
        (ph_scale p) (ph_offset p) (ph_max p) (ph_min p).

Definition writable (sv : schema -> vlr) (h : header) : Prop :=
  fresh_ok sv h \/ exists g, gap_ok sv h g /\ g <= 2 /\ (h_vmin h <> 0 \/ g = 2).
Definition first_record (sv : schema -> vlr) (h : header) : Z :=
  let e := h_hsize h + vlrs_size (written_vlrs sv h) in if h_vmin h =? 0 then e + 2 else Z.max e (h_doff h).
Definition finite3 (v : f64x3) : Prop := f64_fin (x_of v) = true /\ f64_fin (y_of v) = true /\ f64_fin (z_of v) = true.

Lemma writable_facts sv h : writable sv h ->
  header_wf h /\ h_comp h = false /\ Forall (fun v => is_crs v = true) (h_srs h) /\
  Forall (fun v => vlr_wf v /\ v_size v = Z.of_nat (length (v_data v))) (written_vlrs sv h) /\ 227 <= h_hsize h /\
  0 <= first_record sv h < 2 ^ 31.
Proof.
  intros H. pose proof (vlrs_size_nonneg (written_vlrs sv h)) as V0.
  destruct H as [(W & C & S & _ & L & Hh & B & D & _)|(g & (W & C & S & _ & L & Hh & D & P & G0 & B) & G2 & Hv)];
    (split; [exact W|]; split; [exact C|]; split; [exact S|]; split; [exact L|]; split; [exact Hh|]; unfold first_record; cbv zeta; destruct (Z.eqb_spec (h_vmin h) 0); lia).
Qed.

(** the layout of the file *)
Lemma writable_layout sv h ps : writable sv h -> Forall (point_fits (get_record_length h)) ps -> Z.of_nat (length ps) < 2 ^ 32 ->
  let L := written_vlrs sv h in
  exists p X T, write_file sv h ps = Ok (laid_out (new_header h L p (first_record sv h) (Z.of_nat (length ps))) L X ps T) /\
     Z.of_nat (length X) = first_record sv h - (h_hsize h + vlrs_size L) /\ bytes_ok X /\ bytes_ok T.
Proof.
  intros H FP N. cbv zeta. set (L := written_vlrs sv h) in *. destruct H as [HF|(g & HG & G2 & Hv)].
  - pose proof HF as (_ & _ & _ & _ & _ & _ & B & D & _). fold L in B, D.
    exists 0, (pad_sig (h_vmin h)), [].
    assert (ED : first_record sv h = fresh_doff sv h).
    { unfold first_record, fresh_doff. cbv zeta. fold L. unfold pad_sig. destruct (h_vmin h =? 0); cbn [List.length]; lia. }
    split.
    + rewrite write_file_image by (assumption || lia).
      unfold file_image, laid_out, file_header, fresh_header, new_header, fresh_tail. fold L. rewrite <- ED, app_nil_r, <- app_assoc. reflexivity.
    + split; [unfold first_record; cbv zeta; fold L; unfold pad_sig; destruct (h_vmin h =? 0); cbn [List.length]; lia|].
      split; [unfold pad_sig; destruct (_ =? _); repeat constructor; unfold is_byte; lia|constructor].
  - pose proof HG as (_ & _ & _ & _ & _ & _ & D & _ & G0 & _). fold L in D.
    eexists g, (gap_bytes h g), _.
    assert (ED : first_record sv h = h_doff h).
    { unfold first_record. cbv zeta. fold L. destruct (Z.eqb_spec (h_vmin h) 0); lia. }
    split.
    + rewrite (gap_image sv h g) by (assumption || lia).
      unfold laid_out, gap_header, new_header. fold L. rewrite <- ED. reflexivity.
    + split; [rewrite ED; unfold gap_bytes; destruct (Z.eqb_spec (h_vmin h) 0); [cbn [List.length]|rewrite repeat_length]; lia|].
      split; [unfold gap_bytes; destruct (_ =? _); [repeat constructor; unfold is_byte; lia|]|]; apply repeat_bytes; unfold is_byte; lia.
Qed.

Lemma crs_not_laszip v : is_crs v = true -> has_id "laszip encoded" 22204 v = false.
Proof.
  unfold is_crs, has_id. rewrite !orb_true_iff, !andb_true_iff. intros H. apply andb_false_iff. right. apply Z.eqb_neq.
  destruct H as [[[(_ & H)|(_ & H)]|(_ & H)]|(_ & H)]; apply Z.eqb_eq in H; lia.
Qed.

Lemma session_file sv h ps : writable sv h -> is_custom (h_schema h) = false -> las_header h -> no_schema_written sv h ->
  finite3 (h_scale h) -> finite3 (h_offset h) -> get_record_length h = std_length (get_format h) -> first_record sv h + 4 < 2 ^ 31 ->
  Forall (fun p => point_fits (get_record_length h) p /\ bytes_ok (p_data p)) ps -> Z.of_nat (length ps) < 2 ^ 32 ->
  exists G, write_file sv h ps = Ok G /\
    pub_of_file G = stored (with_count (with_doff (with_nvlr (pub_of_header h) (Z.of_nat (length (written_vlrs sv h)))) (first_record sv h)) (Z.of_nat (length ps))) /\
    slice G 8 16 = guid_swap (h_guid h) /\
    file_vlrs G = map vlr_norm (written_vlrs sv h) /\ standard G /\ gap G <= 2 /\
    forall k p, nth_error ps k = Some p -> file_record G (Z.of_nat k) = record_of (get_record_length h) p.
Proof.
  intros HW HCu HLa HNs FS FO RL FR HPS NPS.
  destruct (writable_facts sv h HW) as (Hwf & HC & Hsrs & HL & Hh & Hfr).
  assert (FP : Forall (point_fits (get_record_length h)) ps) by (eapply Forall_impl; [|exact HPS]; intros x [Hx _]; exact Hx).
  destruct (writable_layout sv h ps HW FP NPS) as (p & X & T & EW & LX & BX & BT). cbv zeta in EW, LX.
  set (L := written_vlrs sv h) in *. set (N := Z.of_nat (length ps)) in *. set (d := first_record sv h) in *.
  set (H := new_header h L p d N) in *. exists (laid_out H L X ps T). split; [exact EW|].
  destruct HLa as (Hsig & Hmaj & Hmin & Hfmt & Hrl).
  pose proof Hwf as (_ & _ & _ & _ & _ & _ & _ & Uv & _ & _ & _ & _ & _ & _ & Uh & _). unfold in_unsigned in Uh, Uv.
  pose proof (vlrs_size_nonneg L) as V0. pose proof (vlrs_size_count L) as VC.
  assert (CO : Forall Reader_Vlrs.vlr_consistent L) by exact HL.
  assert (LO : layout_ok H L X ps).
  { unfold layout_ok. split.
    { unfold H, new_header. apply wf_set_npts, wf_set_doff, wf_set_pad, wf_set_vlrs; auto.
      - eapply Forall_impl; [|exact CO]. intros v [Hw _]. exact Hw.
      - unfold in_unsigned. lia. }
    split; [exact HC|]. change (get_format H) with (get_format h). change (get_record_length H) with (get_record_length h).
    change (h_hsize H) with (h_hsize h). change (h_nvlr H) with (Z.of_nat (length L)).
    change (h_doff H) with (d mod 2 ^ 32). change (h_npts H) with (N mod 2 ^ 32). rewrite !Z.mod_small by lia.
    split; [lia|]. split; [exact CO|]. split; [lia|]. split; [reflexivity|]. split; [lia|]. split; [reflexivity|]. split; [exact FP|exact Hrl]. }
  destruct (laid_out_read H L X ps T LO) as (Q1 & Q2 & Q3 & Q4 & Q5 & Q6 & Q7). cbn zeta in *.
  set (G := laid_out H L X ps T) in *.
  assert (PH : pub_of_header H = with_count (with_doff (with_nvlr (pub_of_header h) (Z.of_nat (length L))) d) N).
  { change (pub_of_header H) with (mkPub (get_file_signature h) (h_srcid h) (h_reserved h) (h_vmaj h) (h_vmin h)
        (get_system_id false h) (get_software_id false h) (h_doy h) (h_year h) (h_hsize h) (d mod 2 ^ 32)
        (Z.of_nat (length L)) (get_format h) (get_record_length h) (N mod 2 ^ 32) (firstn 5 (h_byret h))
        (bits3 (h_scale h)) (bits3 (h_offset h)) (bits3 (h_max h)) (bits3 (h_min h))).
    rewrite !Z.mod_small by lia. reflexivity. }
  assert (EP : pub_of_file G = stored (with_count (with_doff (with_nvlr (pub_of_header h) (Z.of_nat (length L))) d) N)) by (rewrite Q1, pub_stored, PH; reflexivity).
  split; [exact EP|]. split; [rewrite Q2; reflexivity|]. split; [exact Q3|].
  assert (FE : forall A (f : pubhdr -> A), (forall p a b, f (with_source p a b) = f p) -> f (pub_of_file G) = f (with_count (with_doff (with_nvlr (pub_of_header h) (Z.of_nat (length L))) d) N)).
  { intros A f F2. rewrite EP. unfold stored. destruct (_ =? _); [apply F2|reflexivity]. }
  assert (G94 : u_at G 94 2 = h_hsize h) by (apply (FE _ ph_hsize); reflexivity).
  assert (G104 : u_at G 104 1 = get_format h) by (apply (FE _ ph_format); reflexivity).
  assert (G105 : u_at G 105 2 = get_record_length h) by (apply (FE _ ph_reclen); reflexivity).
  assert (G96 : u_at G 96 4 = d) by (apply (FE _ ph_doff); reflexivity).
  assert (G25 : u_at G 25 1 = h_vmin h) by (apply (FE _ ph_vmin); reflexivity).
  assert (G0 : slice G 0 4 = h_sig h) by (apply (FE _ ph_sig); reflexivity).
  assert (G24 : u_at G 24 1 = h_vmaj h) by (apply (FE _ ph_vmaj); reflexivity).
  assert (HD : h_hsize h <= d) by lia.
  assert (NV : Forall (fun v => has_id "liblas" 7 v = false) (file_vlrs G)).
  { rewrite Q3. apply Forall_map. eapply Forall_impl; [|exact HNs]. intros v Hv. rewrite has_id_norm. exact Hv. }
  assert (NL : Forall (fun v => has_id "laszip encoded" 22204 v = false) (file_vlrs G)).
  { rewrite Q3. apply Forall_map. apply Forall_forall. intros v Hin. rewrite has_id_norm. unfold L, written_vlrs in Hin. rewrite HCu in Hin.
    apply in_app_or in Hin. destruct Hin as [Hin|Hin].
    - apply filter_In in Hin. destruct Hin as (_ & Hv). rewrite !andb_true_iff in Hv. destruct Hv as ((_ & Hv) & _). now apply negb_true_iff in Hv.
    - rewrite app_nil_r in Hin. rewrite Forall_forall in Hsrs. now apply crs_not_laszip, Hsrs. }
  assert (LF : las_file G).
  { split.
    { unfold G, laid_out. apply then_at_bytes; [apply hdr_bytes_bytes, LO|]. repeat apply bytes_app; try assumption.
      - unfold vlrs_image. apply bytes_concat. apply Forall_map. eapply Forall_impl; [|exact CO]. intros v [Hw _]. now apply vlr_image_bytes.
      - unfold records. apply bytes_concat. apply Forall_map. eapply Forall_impl; [|exact HPS].
        intros q [_ Hq]. now apply bytes_firstn. }
    split; [unfold G, laid_out; destruct (then_at_split (hdr_bytes H) (Z.to_nat (h_hsize H)) (vlrs_image L ++ X ++ records (get_record_length H) ps ++ T)) as [rest ->];
            rewrite app_length, hdr_bytes_len by apply LO; lia|].
    split; [now rewrite G0|]. split; [now rewrite G24|]. split; [now rewrite G25|]. split; [rewrite G94, G96; exact HD|]. split; [rewrite G104; lia|exact Q5]. }
  assert (FSc : finite_scaling G).
  { assert (X1 : ph_scale (pub_of_file G) = bits3 (h_scale h)) by (apply (FE _ ph_scale); reflexivity).
    assert (X2 : ph_offset (pub_of_file G) = bits3 (h_offset h)) by (apply (FE _ ph_offset); reflexivity).
    unfold bits3 in X1, X2. cbn [ph_scale ph_offset pub_of_file] in X1, X2. injection X1 as Y1 Y2 Y3. injection X2 as Y4 Y5 Y6.
    destruct FS as (S1 & S2 & S3). destruct FO as (O1 & O2 & O3).
    unfold finite_scaling. repeat apply Forall_cons; try apply Forall_nil; cbv beta; rewrite ?Y1, ?Y2, ?Y3, ?Y4, ?Y5, ?Y6, f64_of_bits_bits; assumption. }
  split; [|split; [|intros k q Hk; exact (Q7 k q Hk)]].
  - split.
    + split; [exact LF|]. split; [exact NV|]. split; [exact FSc|exact Q6].
    + split; [exact LF|]. split; [exact NV|]. split; [unfold f_reclen; rewrite G104, G105; exact RL|]. split; [exact NL|]. split; [rewrite G94; exact Hh|].
      unfold f_doff at 1. rewrite G96, Q4. change (h_hsize H) with (h_hsize h). split; lia.
  - unfold gap, f_doff. rewrite G96, Q4. change (h_hsize H) with (h_hsize h).
    assert (d - (h_hsize h + vlrs_size L) <= 2); [|lia]. unfold d, first_record. cbv zeta. fold L.
    destruct HW as [(_ & _ & _ & _ & _ & _ & _ & D & _)|(g & (_ & _ & _ & _ & _ & _ & D & _) & G2 & _)]; fold L in D; destruct (h_vmin h =? 0); lia.
Qed.

(** More than two bytes between the VLRs and the first record. *)
Lemma wide_gap sv h : header_wf h -> h_comp h = false -> Forall (fun v => is_crs v = true) (h_srs h) -> is_custom (h_schema h) = false ->
  Forall (fun v => vlr_wf v /\ v_size v = Z.of_nat (length (v_data v))) (written_vlrs sv h) -> 227 <= h_hsize h -> h_doff h + 2 < 2 ^ 31 ->
  let g := h_doff h - (h_hsize h + vlrs_size (written_vlrs sv h)) in 2 < g -> h_pad h <= g -> writer_new sv (os_open []) h = UB UBOutOfBounds.
Proof.
  intros Hwf HC Hs Hcu HL Hh Hd g Hg Hp.
  assert (Rg : 0 <= g < 2 ^ 31) by (unfold g in *; pose proof (vlrs_size_nonneg (written_vlrs sv h)); lia).
  set (h2 := set_header_padding h g).
  assert (G2 : gap_ok sv h2 g).
  { unfold gap_ok. cbv zeta. change (written_vlrs sv h2) with (written_vlrs sv h). change (h_srs h2) with (h_srs h). change (h_schema h2) with (h_schema h). change (h_comp h2) with (h_comp h). change (h_hsize h2) with (h_hsize h). change (h_doff h2) with (h_doff h).
    split; [now apply wf_set_pad|]. split; [exact HC|]. split; [exact Hs|]. split; [exact Hcu|]. split; [exact HL|]. split; [exact Hh|].
    split; [unfold g; lia|]. split; [change (g mod 2 ^ 32 = g); apply Z.mod_small; lia|]. split; [lia|exact Hd]. }
  pose proof (writer_new_gap sv h2 g G2) as W. destruct (Z.ltb_spec 2 g); [|lia].
  rewrite <- W. unfold writer_new, writer_write_header, write_header. cbn [w_os w_hdr w_count os_open].
  assert (EP : prepare_header sv h = prepare_header sv h2).
  { rewrite (prepare_gap sv h2 g G2). pose proof (prep_vlrs sv h Hs ltac:(congruence)) as P. cbn zeta in P.
    unfold prepare_header. set (L := written_vlrs sv h) in *.
    set (h1 := set_georeference (delete_vlrs h (str "liblas") 2112)) in *.
    set (h3 := if is_custom (h_schema h1) then add_vlr (delete_vlrs h1 (str "liblas") 7) (sv (h_schema h1)) else h1) in *.
    assert (Hc2 : h_comp h3 = false).
    { change (h_comp h3) with (h_comp (delete_vlrs h3 (str "laszip encoded") 22204)). rewrite P. exact HC. }
    rewrite Hc2, P. clear P Hc2. clearbody h1 h3.
    pose proof (vlrs_size_count L) as HCn. pose proof (vlrs_size_nonneg L) as HN.
    rewrite (Z.mod_small (Z.of_nat (length L))) by lia.
    assert (B : forall x, h_nvlr x = Z.of_nat (length L) -> h_vlrs x = L -> vlr_block_size x = Ok (vlrs_size L)).
    { intros x E1 E2. rewrite vlr_block_ok; rewrite ?E2; auto. lia. }
    unfold new_padding. rewrite B by reflexivity. cbn [obind h_upd_vlrs h_doff h_hsize h_pad].
    assert (EX : to_signed 32 (h_doff h - (vlrs_size L + h_hsize h)) = g).
    { replace (h_doff h - (vlrs_size L + h_hsize h)) with g by (unfold g; lia). unfold to_signed. change (2 ^ (32 - 1)) with (2 ^ 31). rewrite Z.mod_small by lia. destruct (Z.ltb_spec g (2 ^ 31)); lia. }
    rewrite EX. destruct (Z.ltb_spec g 0); [lia|]. destruct (Z.leb_spec (h_pad h) g); [|lia]. cbn [obind].
    rewrite B by reflexivity. cbn [obind]. unfold gap_header. change (written_vlrs sv h2) with L. f_equal.
    change (h_hsize (set_header_padding (h_upd_vlrs h (Z.of_nat (length L)) L) g)) with (h_hsize h).
    change (h_pad (set_header_padding (h_upd_vlrs h (Z.of_nat (length L)) L) g)) with (g mod 2 ^ 32). rewrite (Z.mod_small g) by lia.
    change (h_doff h2) with (h_doff h). replace (h_hsize h + vlrs_size L + g) with (h_doff h) by (unfold g; lia). reflexivity. }
  rewrite EP. reflexivity.
Qed.

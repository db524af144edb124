(** C53: rewriting a file: open it, make a writer with the reader's header, copy
    all points, close.

    Vocabulary.  IO_Spec.v: [pub_of_file] (header block as a table), [file_vlrs],
    [file_vlrs_end], [vlr_view]; Reader_Spec.v: [file_record], [complete].
    [a_file] (Prop_Reader.v): a file the reader accepts, with all its records.
    [sv], [xml]: the XML schema encoder and decoder (arbitrary). *)
From Coq Require Import ZArith List Bool Lia String.
From Coq Require Import ZifyBool ZifyNat.
Import ListNotations.
From Verif Require Import Outcome Bytes Float64 Float64_Proofs CStr Vlr_Model Schema_Model Schema_Spec Schema_Api Header_Model Point_Model Stream_Model Stream_Proofs
  IO_Spec Reader_Proofs Reader_Vlrs Reader_Model Reader_Spec Reader_Schema Reader_Api Reader_Open Reader_Hist Writer_Model Writer_Api Writer_Proofs Writer_File Writer_V10 Writer_RT
  IO_Round IO_Extra IO_Samples Prop_Reader Iter_Spec Iter_Model Iter_Proofs Rewrite_Proofs Rewrite_Gap Rewrite_Read.
Local Open Scope Z_scope.
Local Notation length := List.length (only parsing).

(** The program. *)
Definition rewrite_file (sv : schema -> vlr) (xml : vlr -> outcome schema) (doy year : Z) (F : list Z) : outcome (list Z) :=
  let! r := reader_open xml doy year F in
  let! w := writer_new sv (os_open []) (r_hdr r) in
  let (st, a) := it_begin [r] 0 in
  let! it := a in
  let! (st2, w2) := copy_points (Z.to_nat (f_npts F) + 2) st it it_end w in
  writer_close w2.

(** Files of the standard kind: the record length is that of the point format,
    no schema or compression VLR, a header of at least 227 bytes.  [gap]
    (Rewrite_Proofs.v): bytes between the last VLR and the first record. *)
Definition standard (F : list Z) : Prop := a_file F /\ plain_file F.
Definition with_doff (p : pubhdr) (d : Z) : pubhdr :=
  mkPub (ph_sig p) (ph_source p) (ph_reserved p) (ph_vmaj p) (ph_vmin p) (ph_sysid p) (ph_swid p) (ph_doy p) (ph_year p)
        (ph_hsize p) d (ph_nvlr p) (ph_format p) (ph_reclen p) (ph_npts p) (ph_returns p)
        (ph_scale p) (ph_offset p) (ph_max p) (ph_min p).
(** Where the records of the new file start. *)
Definition new_doff (F : list Z) : Z :=
  if u_at F 25 1 =? 0 then Z.of_nat (file_vlrs_end F) + 2 else Z.max (Z.of_nat (file_vlrs_end F)) (f_doff F).

Definition new_header (h : header) (L : list vlr) (p d n : Z) : header :=
  set_point_count (set_data_offset (set_header_padding (h_upd_vlrs h (Z.of_nat (length L)) L) p) d) n.

Lemma rewrite_session sv xml doy year F r G : a_file F -> reader_open xml doy year F = Ok r ->
  write_file sv (r_hdr r) (file_points F (r_hdr r)) = Ok G -> rewrite_file sv xml doy year F = Ok G.
Proof.
  intros HA E EW. destruct (open_reads xml doy year F HA) as (r' & E1 & HR & _). rewrite E in E1. injection E1 as <-.
  unfold rewrite_file. rewrite E. cbn [obind]. unfold write_file, write_session in EW.
  destruct (writer_new sv (os_open []) (r_hdr r)) as [w|e|u]; cbn [obind] in *; try discriminate.
  destruct (write_points w (file_points F (r_hdr r))) as [w2|e|u] eqn:EP; cbn [obind] in EW; try discriminate.
  destruct (copy_all 0 F [r] r (Z.to_nat (f_npts F) + 2) w w2 eq_refl HR ltac:(lia) EP) as (st1 & it & st2 & E2 & E3).
  rewrite E2. cbn [obind]. rewrite E3. exact EW.
Qed.

Lemma plain_gap sv xml doy year F : plain_file F -> 0 < gap F ->
  exists r, reader_open xml doy year F = Ok r /\ gap_ok sv (r_hdr r) (gap F) /\ shows_file F (r_hdr r) /\
    written_vlrs sv (r_hdr r) = geo_last (file_vlrs F).
Proof.
  intros HP HG. destruct (plain_header xml doy year F HP) as (r & E & Hsh & HW & Hv & E1 & E2 & E3 & E4 & E5).
  exists r. split; [exact E|]. destruct (plain_written sv F (r_hdr r) HP Hsh Hv) as (C & W & S & S').
  pose proof HP as (HF & HN & HL & HZ & Hh & Hd). destruct (file_vlrs_facts F HF) as (V1 & V2 & V3).
  specialize (E5 ltac:(lia)). pose proof (file_vlrs_wf F HF) as WV.
  assert (SZ : vlrs_size (geo_last (file_vlrs F)) = vlrs_size (file_vlrs F)) by apply vlrs_size_split.
  split; [|split; [exact Hsh|exact W]].
  unfold gap_ok. cbn zeta. rewrite W, SZ. split; [exact HW|]. split; [apply Hsh|]. split; [exact S|]. split; [exact C|].
  split.
  { apply Forall_forall. intros v Hin. apply (proj1 (geo_last_in _ _)) in Hin. rewrite Forall_forall in WV, V3. split; [now apply WV|now apply V3]. }
  rewrite E1, E2, E5. split; [exact Hh|]. unfold gap in *. split; [lia|]. split; [reflexivity|]. split; [lia|lia].
Qed.

Lemma rewrite_main sv xml doy year F : standard F -> gap F <= 2 -> u_at F 25 1 <> 0 \/ gap F <> 1 ->
  exists G, rewrite_file sv xml doy year F = Ok G /\
    pub_of_file G = with_doff (if u_at F 25 1 =? 0 then with_source (pub_of_file F) (u_at F 6 2) 0 else pub_of_file F) (new_doff F) /\
    slice G 8 16 = guid_swap (slice F 8 16) /\
    file_vlrs G = map vlr_norm (geo_last (file_vlrs F)) /\
    standard G /\ gap G = new_doff F - Z.of_nat (file_vlrs_end F) /\
    forall i, 0 <= i < f_npts F -> file_record G i = file_record F i.
Proof.
  intros (HA & HP) HG Hv. pose proof HA as (HF & HN & _ & HC). pose proof HP as (_ & _ & HLn & _ & Hh & Hd).
  pose proof (proj1 HF) as HB. destruct (fields_nonneg F HB) as (_ & N0 & _).
  destruct (file_vlrs_facts F HF) as (V1 & V2 & V3). pose proof (file_vlrs_wf F HF) as WV.
  assert (SZ : vlrs_size (geo_last (file_vlrs F)) = vlrs_size (file_vlrs F)) by apply vlrs_size_split.
  assert (LZ : length (geo_last (file_vlrs F)) = length (file_vlrs F)) by apply length_split.
  pose proof (vlrs_size_nonneg (file_vlrs F)) as V0.
  pose proof (u_at_range F 94 2 HB) as R94. change (pow256 2) with (2 ^ 16) in R94.
  pose proof (u_at_range F 107 4 HB) as R107. change (pow256 4) with (2 ^ 32) in R107. fold (f_npts F) in R107.
  pose proof (u_at_range F 104 1 HB) as R104.
  assert (H104 : u_at F 104 1 <= 3) by apply HF.
  assert (CO : Forall Reader_Vlrs.vlr_consistent (geo_last (file_vlrs F))).
  { apply Forall_forall. intros v Hin. apply (proj1 (geo_last_in _ _)) in Hin. rewrite Forall_forall in WV, V3. split; [exact (WV v Hin)|exact (V3 v Hin)]. }
  set (L := geo_last (file_vlrs F)) in *.
  (* the layout *)
  assert (K : exists r p X T, reader_open xml doy year F = Ok r /\ shows_file F (r_hdr r) /\ header_wf (r_hdr r) /\
     (let ps := file_points F (r_hdr r) in
      write_file sv (r_hdr r) ps = Ok (laid_out (new_header (r_hdr r) L p (new_doff F) (f_npts F)) L X ps T)) /\
     Z.of_nat (length X) = new_doff F - Z.of_nat (file_vlrs_end F) /\ bytes_ok X /\ bytes_ok T).
  { destruct (Z_le_gt_dec (gap F) 0) as [G0|G0].
    - destruct (plain_fresh sv xml doy year F HP G0) as (r & E & HFr & HLa & HNs & Hsh & W). fold L in W.
      pose proof Hsh as (P & _).
      assert (E1 : h_hsize (r_hdr r) = u_at F 94 2) by exact (f_equal ph_hsize P).
      assert (E3 : h_vmin (r_hdr r) = u_at F 25 1) by exact (f_equal ph_vmin P).
      assert (EL : get_record_length (r_hdr r) = f_reclen F) by exact (f_equal ph_reclen P).
      assert (LP : Z.of_nat (length (file_points F (r_hdr r))) = f_npts F) by (rewrite file_points_length; lia).
      exists r, 0, (pad_sig (u_at F 25 1)), []. split; [exact E|]. split; [exact Hsh|]. split; [apply HFr|].
      assert (ED : new_doff F = fresh_doff sv (r_hdr r)).
      { unfold new_doff, fresh_doff, gap in *. rewrite W, SZ, E1, E3. unfold pad_sig. destruct (u_at F 25 1 =? 0); cbn [List.length]; lia. }
      split.
      + cbn zeta. rewrite write_file_image; [|exact HFr| |lia].
        * unfold file_image, laid_out, file_header, fresh_header, new_header, fresh_tail. rewrite W, E3, LP, <- ED, app_nil_r, <- app_assoc. reflexivity.
        * eapply Forall_impl; [|apply file_points_ok; eassumption]. cbv beta. tauto.
      + split; [unfold new_doff, pad_sig, gap in *; destruct (u_at F 25 1 =? 0); cbn [List.length]; lia|].
        split; [unfold pad_sig; destruct (_ =? _); repeat constructor; unfold is_byte; lia|constructor].
    - destruct (plain_gap sv xml doy year F HP ltac:(lia)) as (r & E & HGo & Hsh & W). fold L in W.
      pose proof Hsh as (P & _).
      assert (E1 : h_hsize (r_hdr r) = u_at F 94 2) by exact (f_equal ph_hsize P).
      assert (E2 : h_doff (r_hdr r) = f_doff F) by exact (f_equal ph_doff P).
      assert (E3 : h_vmin (r_hdr r) = u_at F 25 1) by exact (f_equal ph_vmin P).
      assert (EL : get_record_length (r_hdr r) = f_reclen F) by exact (f_equal ph_reclen P).
      assert (LP : Z.of_nat (length (file_points F (r_hdr r))) = f_npts F) by (rewrite file_points_length; lia).
      eexists r, (gap F), (gap_bytes (r_hdr r) (gap F)), _. split; [exact E|]. split; [exact Hsh|]. split; [apply HGo|].
      assert (ED : new_doff F = h_doff (r_hdr r)).
      { rewrite E2. unfold new_doff, gap in *. destruct (Z.eqb_spec (u_at F 25 1) 0); lia. }
      split.
      + cbn zeta. rewrite (gap_image sv (r_hdr r) (gap F)); [|exact HGo|lia|lia| |lia].
        * unfold laid_out, gap_header, new_header. rewrite W, LP, <- ED. reflexivity.
        * eapply Forall_impl; [|apply file_points_ok; eassumption]. cbv beta. tauto.
      + split; [rewrite ED, E2; unfold gap_bytes; rewrite E3; unfold gap in *; destruct (Z.eqb_spec (u_at F 25 1) 0); [cbn [List.length]|rewrite repeat_length]; lia|].
        split; [unfold gap_bytes; destruct (_ =? _); [repeat constructor; unfold is_byte; lia|]|]; apply repeat_bytes; unfold is_byte; lia. }
  destruct K as (r & p & X & T & E & Hsh & HW & EW & LX & BX & BT). cbn zeta in EW.
  set (ps := file_points F (r_hdr r)) in *. set (H := new_header (r_hdr r) L p (new_doff F) (f_npts F)) in *.
  exists (laid_out H L X ps T).
  split; [now apply (rewrite_session sv xml doy year F r)|].
  pose proof Hsh as (P & PG & PC & _).
  assert (E1 : h_hsize (r_hdr r) = u_at F 94 2) by exact (f_equal ph_hsize P).
  assert (E3 : h_vmin (r_hdr r) = u_at F 25 1) by exact (f_equal ph_vmin P).
  assert (EF : get_format (r_hdr r) = u_at F 104 1) by exact (f_equal ph_format P).
  assert (EL : get_record_length (r_hdr r) = f_reclen F) by exact (f_equal ph_reclen P).
  assert (LP : Z.of_nat (length ps) = f_npts F) by (unfold ps; rewrite file_points_length; lia).
  assert (D1 : 0 <= new_doff F < 2 ^ 32) by (unfold new_doff, gap, f_doff in *; pose proof (u_at_range F 96 4 HB); destruct (u_at F 25 1 =? 0); lia).
  assert (LO : layout_ok H L X ps).
  { unfold layout_ok. split.
    { unfold H, new_header. apply wf_set_npts, wf_set_doff, wf_set_pad, wf_set_vlrs; auto.
      - eapply Forall_impl; [|exact CO]. intros v [Hw _]. exact Hw.
      - unfold in_unsigned. pose proof (u_at_range F 100 4 HB) as R. change (pow256 4) with (2 ^ 32) in R. lia. }
    split; [exact PC|]. change (get_format H) with (get_format (r_hdr r)). change (get_record_length H) with (get_record_length (r_hdr r)).
    change (h_hsize H) with (h_hsize (r_hdr r)). change (h_nvlr H) with (Z.of_nat (length L)).
    change (h_doff H) with (new_doff F mod 2 ^ 32). change (h_npts H) with (f_npts F mod 2 ^ 32). rewrite !Z.mod_small by lia.
    split; [lia|]. split; [exact CO|]. split; [lia|]. split; [reflexivity|]. split; [lia|]. split; [lia|].
    split; [eapply Forall_impl; [|apply file_points_ok; eassumption]; cbv beta; tauto|]. rewrite EL. apply HC. }
  destruct (laid_out_read H L X ps T LO) as (Q1 & Q2 & Q3 & Q4 & Q5 & Q6 & Q7). cbn zeta in *.
  set (G := laid_out H L X ps T) in *.
  assert (EP : pub_of_file G = with_doff (if u_at F 25 1 =? 0 then with_source (pub_of_file F) (u_at F 6 2) 0 else pub_of_file F) (new_doff F)).
  { rewrite Q1. unfold stored_view. change (h_vmin H) with (h_vmin (r_hdr r)). rewrite E3.
    assert (PH : pub_of_header H = with_doff (pub_of_file F) (new_doff F)).
    { transitivity (with_doff (pub_of_header (r_hdr r)) (new_doff F)); [|now rewrite P].
      assert (NV : h_nvlr (r_hdr r) = Z.of_nat (length L)) by (rewrite LZ, V2; exact (f_equal ph_nvlr P)).
      assert (NP : h_npts (r_hdr r) = f_npts F) by exact (f_equal ph_npts P).
      change (pub_of_header H) with (mkPub (get_file_signature (r_hdr r)) (h_srcid (r_hdr r)) (h_reserved (r_hdr r)) (h_vmaj (r_hdr r)) (h_vmin (r_hdr r))
        (get_system_id false (r_hdr r)) (get_software_id false (r_hdr r)) (h_doy (r_hdr r)) (h_year (r_hdr r)) (h_hsize (r_hdr r)) (new_doff F mod 2 ^ 32)
        (Z.of_nat (length L)) (get_format (r_hdr r)) (get_record_length (r_hdr r)) (f_npts F mod 2 ^ 32) (firstn 5 (h_byret (r_hdr r)))
        (bits3 (h_scale (r_hdr r))) (bits3 (h_offset (r_hdr r))) (bits3 (h_max (r_hdr r))) (bits3 (h_min (r_hdr r)))).
      rewrite !Z.mod_small by lia. rewrite <- NV, <- NP. reflexivity. }
    destruct (Z.eqb_spec (u_at F 25 1) 0) as [V|V]; [|exact PH].
    assert (HR : h_reserved H = u_at F 6 2) by exact (f_equal ph_reserved P).
    transitivity (with_source (pub_of_header H) (h_reserved H) 0); [reflexivity|]. rewrite PH, HR. reflexivity. }
  assert (REC : forall i, 0 <= i < f_npts F -> file_record G i = file_record F i).
  { intros i Hi. pose proof (file_points_nth F (r_hdr r) i Hi) as NP. fold ps in NP.
  pose proof (Q7 (Z.to_nat i) _ NP) as Y. rewrite Z2Nat.id in Y by lia. rewrite Y. unfold record_of. cbn [p_data].
  apply firstn_all2. change (get_record_length H) with (get_record_length (r_hdr r)). rewrite (file_record_length F i HC HB Hi), EL. lia. }
  split; [exact EP|].
  split; [rewrite Q2; change (h_guid H) with (h_guid (r_hdr r)); now rewrite PG|].
  split; [exact Q3|].
  split; [|split].
  2:{ unfold gap, f_doff. assert (X96 : u_at G 96 4 = new_doff F) by (exact (f_equal ph_doff EP)). rewrite X96, Q4.
      change (h_hsize H) with (h_hsize (r_hdr r)). rewrite E1, SZ. lia. }
  2:{ intros i Hi. exact (REC i Hi). }
  assert (FE : forall A (f : pubhdr -> A), (forall p d, f (with_doff p d) = f p) -> (forall p a b, f (with_source p a b) = f p) -> f (pub_of_file G) = f (pub_of_file F)).
  { intros A f F1 F2. rewrite EP, F1. destruct (u_at F 25 1 =? 0); [apply F2|reflexivity]. }
  assert (G94 : u_at G 94 2 = u_at F 94 2) by (apply (FE _ ph_hsize); reflexivity).
  assert (G104 : u_at G 104 1 = u_at F 104 1) by (apply (FE _ ph_format); reflexivity).
  assert (G105 : u_at G 105 2 = u_at F 105 2) by (apply (FE _ ph_reclen); reflexivity).
  assert (G96 : u_at G 96 4 = new_doff F) by (exact (f_equal ph_doff EP)).
  assert (NV : Forall (fun v => has_id "liblas" 7 v = false) (file_vlrs G)).
  { rewrite Q3. apply Forall_map. apply Forall_forall. intros v Hin. rewrite has_id_norm. apply (proj1 (geo_last_in _ _)) in Hin.
    unfold no_schema_vlr in HN. rewrite Forall_forall in HN. now apply HN. }
  assert (LF : las_file G).
  { split.
    { unfold G, laid_out. apply then_at_bytes; [apply hdr_bytes_bytes, LO|]. repeat apply bytes_app; try assumption.
      - unfold vlrs_image. apply bytes_concat. apply Forall_map. eapply Forall_impl; [|exact CO]. intros v [Hw _]. now apply vlr_image_bytes.
      - unfold records. apply bytes_concat. apply Forall_map. unfold ps. eapply Forall_impl; [|apply file_points_ok; eassumption].
        cbv beta. intros q [_ Hq]. now apply bytes_firstn. }
    split; [unfold G, laid_out; destruct (then_at_split (hdr_bytes H) (Z.to_nat (h_hsize H)) (vlrs_image L ++ X ++ records (get_record_length H) ps ++ T)) as [rest ->];
            rewrite app_length, hdr_bytes_len by apply LO; lia|].
    split; [rewrite <- (proj1 (proj2 (proj2 HF))); apply (FE _ ph_sig); reflexivity|].
    split; [rewrite <- (proj1 (proj2 (proj2 (proj2 HF)))); apply (FE _ ph_vmaj); reflexivity|].
    assert (G25 : u_at G 25 1 = u_at F 25 1) by (apply (FE _ ph_vmin); reflexivity).
    split; [rewrite G25; apply HF|]. split; [unfold new_doff, f_doff in G96; rewrite G94, G96; destruct HF as (_ & _ & _ & _ & _ & H96 & _); destruct (u_at F 25 1 =? 0); lia|].
    split; [rewrite G104; apply HF|exact Q5]. }
  split.
  - split; [exact LF|]. split; [exact NV|]. split; [|exact Q6].
    destruct HA as (_ & _ & FS & _). unfold finite_scaling in *.
    pose proof (FE _ ph_scale (fun _ _ => eq_refl) (fun _ _ _ => eq_refl)) as X1. pose proof (FE _ ph_offset (fun _ _ => eq_refl) (fun _ _ _ => eq_refl)) as X2.
    cbn [ph_scale ph_offset pub_of_file] in X1, X2. injection X1 as Y1 Y2 Y3. injection X2 as Y4 Y5 Y6.
    apply Forall_forall. intros o Ho. rewrite Forall_forall in FS. specialize (FS o Ho). cbv beta in FS.
    assert (EO : u_at G o 8 = u_at F o 8).
    { cbn [In] in Ho. decompose [or] Ho; subst; (assumption || contradiction). }
    now rewrite EO.
  - split; [exact LF|]. split; [exact NV|]. split; [unfold f_reclen; now rewrite G104, G105|].
    split.
    { rewrite Q3. apply Forall_map. apply Forall_forall. intros v Hin. rewrite has_id_norm. apply (proj1 (geo_last_in _ _)) in Hin.
      destruct HP as (_ & _ & _ & HZ & _). rewrite Forall_forall in HZ. now apply HZ. }
    split; [now rewrite G94|]. unfold f_doff at 1. rewrite G96, Q4. change (h_hsize H) with (h_hsize (r_hdr r)). rewrite E1, SZ.
    unfold new_doff, f_doff in *. destruct (u_at F 25 1 =? 0); lia.
Qed.

(** C53: if there are at most two bytes between VLRs and records (and not exactly
    one in version 1.0), the new file has the same header block up to the start
    of the records, the VLRs with the georeferencing ones last, and the same
    records.  The project id is byte-swapped, and in version 1.0 the source id
    replaced by the reserved word. *)
Theorem C53_rewrite_partial : forall sv xml doy year F, standard F -> gap F <= 2 -> u_at F 25 1 <> 0 \/ gap F <> 1 ->
  exists G, rewrite_file sv xml doy year F = Ok G /\
    pub_of_file G = with_doff (if u_at F 25 1 =? 0 then with_source (pub_of_file F) (u_at F 6 2) 0 else pub_of_file F) (new_doff F) /\
    slice G 8 16 = guid_swap (slice F 8 16) /\
    map vlr_view (file_vlrs G) = map vlr_view (geo_last (file_vlrs F)) /\
    complete G /\ forall i, 0 <= i < f_npts F -> file_record G i = file_record F i.
Proof.
  intros sv xml doy year F HS HG Hv. destruct (rewrite_main sv xml doy year F HS HG Hv) as (G & E & P & U & V & SG & _ & R).
  exists G. split; [exact E|]. split; [exact P|]. split; [exact U|]. split; [|split; [apply SG|exact R]].
  rewrite V, map_map. apply map_ext. intros v. apply vlr_norm_view.
Qed.
Print Assumptions C53_rewrite_partial.

(** Rewriting again and again (version 1.1 and later): always succeeds, the header
    block stays, the project id alternates, the records stay, and the order of
    the VLRs is settled after the first time. *)
Fixpoint rewrite_times (sv : schema -> vlr) (xml : vlr -> outcome schema) (doy year : Z) (n : nat) (F : list Z) : outcome (list Z) :=
  match n with O => Ok F | S m => let! G := rewrite_file sv xml doy year F in rewrite_times sv xml doy year m G end.

Lemma crs_norm v : is_crs (vlr_norm v) = is_crs v.
Proof. unfold is_crs. now rewrite !has_id_norm. Qed.
Lemma filter_twice {A} (f g : A -> bool) l : filter f (filter g l) = filter (fun x => f x && g x) l.
Proof. induction l as [|a l IH]; [reflexivity|]. cbn [filter]. destruct (g a); cbn [filter]; [destruct (f a)|rewrite andb_false_r]; cbn [andb]; now rewrite IH. Qed.
Lemma geo_last_norm l : geo_last (map vlr_norm (geo_last l)) = map vlr_norm (geo_last l).
Proof.
  unfold geo_last.
  assert (FM : forall (f : vlr -> bool) m, (forall v, f (vlr_norm v) = f v) -> filter f (map vlr_norm m) = map vlr_norm (filter f m)).
  { intros f m Hf. induction m as [|v m IH]; [reflexivity|]. cbn [map filter]. rewrite Hf. destruct (f v); cbn [map]; now rewrite IH. }
  rewrite !FM by (intros v; now rewrite crs_norm). rewrite <- map_app. f_equal.
  rewrite !filter_app, !filter_twice. rewrite <- app_assoc.
  assert (N : forall m : list vlr, filter (fun _ => false) m = []) by (induction m; auto).
  rewrite (filter_ext (fun x => negb (is_crs x) && is_crs x) (fun _ => false)) by (intros v; now destruct (is_crs v)).
  rewrite (filter_ext (fun x => is_crs x && negb (is_crs x)) (fun _ => false)) by (intros v; now destruct (is_crs v)).
  rewrite !N. cbn [app]. f_equal; apply filter_ext; intros v; now destruct (is_crs v).
Qed.

Theorem C53_iterated : forall sv xml doy year F n, standard F -> 0 <= gap F <= 2 -> u_at F 25 1 <> 0 ->
  exists G, rewrite_times sv xml doy year n F = Ok G /\
    pub_of_file G = pub_of_file F /\
    slice G 8 16 = (if Nat.even n then slice F 8 16 else guid_swap (slice F 8 16)) /\
    map vlr_view (file_vlrs G) = map vlr_view (match n with O => file_vlrs F | _ => geo_last (file_vlrs F) end) /\
    complete G /\ forall i, 0 <= i < f_npts F -> file_record G i = file_record F i.
Proof.
  intros sv xml doy year F n. revert F. induction n as [|n IH]; intros F HS Hg Hv.
  - exists F. cbn [rewrite_times Nat.even]. split; [reflexivity|]. split; [reflexivity|]. split; [reflexivity|]. split; [reflexivity|]. split; [apply HS|reflexivity].
  - cbn [rewrite_times]. destruct (rewrite_main sv xml doy year F HS ltac:(lia) ltac:(lia)) as (G1 & E1 & P1 & U1 & V1 & S1 & Q1 & R1).
    rewrite E1. cbn [obind]. destruct (Z.eqb_spec (u_at F 25 1) 0) as [C|_]; [contradiction|].
    assert (DO : new_doff F = f_doff F).
    { unfold new_doff, gap in *. destruct (Z.eqb_spec (u_at F 25 1) 0) as [C|_]; [contradiction|lia]. }
    assert (P1' : pub_of_file G1 = pub_of_file F) by (rewrite P1, DO; reflexivity).
    assert (V25 : u_at G1 25 1 = u_at F 25 1) by exact (f_equal ph_vmin P1').
    assert (N1 : f_npts G1 = f_npts F) by exact (f_equal ph_npts P1').
    destruct (IH G1 S1) as (G & E & P & U & V & C & R).
    { rewrite Q1, DO. unfold gap in Hg. lia. }
    { now rewrite V25. }
    exists G. split; [exact E|]. split; [now rewrite P|].
    split.
    { rewrite U, U1. rewrite Nat.even_succ, <- Nat.negb_even. destruct (Nat.even n); cbn [negb]; [reflexivity|].
      destruct HS as (((HB & HLn & _) & _) & _). apply guid_swap_swap. apply slice_length. lia. }
    split.
    { rewrite V. destruct n as [|n]; rewrite V1; [|rewrite geo_last_norm]; rewrite map_map; apply map_ext; intros v; apply vlr_norm_view. }
    split; [exact C|]. intros i Hi. rewrite R by (rewrite N1; lia). now apply R1.
Qed.
Print Assumptions C53_iterated.

(** With three or more bytes in between, making the writer is undefined: it reads
    past the end of a two-byte string literal. *)
Theorem C53_gap_undefined : forall sv xml doy year F, standard F -> 2 < gap F -> rewrite_file sv xml doy year F = UB UBOutOfBounds.
Proof.
  intros sv xml doy year F (HA & HP) HG. destruct (plain_gap sv xml doy year F HP ltac:(lia)) as (r & E & HGo & _).
  unfold rewrite_file. rewrite E. cbn [obind]. rewrite (writer_new_gap sv _ (gap F) HGo). destruct (Z.ltb_spec 2 (gap F)); [reflexivity|lia].
Qed.
Print Assumptions C53_gap_undefined.

(** Three 20-byte records, [g] bytes after the header. *)
Definition gapped (vmin g : Z) : list Z := raw_file vmin (227 + g) 0 0 20 3 (repeat 5 (Z.to_nat g) ++ rec_of 7 ++ rec_of 8 ++ rec_of 9).
Lemma gapped_standard vmin g : In vmin [0; 2] -> In g [0; 2; 3] -> standard (gapped vmin g) /\ gap (gapped vmin g) = g /\ exact_end (gapped vmin g) /\ u_at (gapped vmin g) 25 1 = vmin.
Proof.
  intros [<-|[<-|[]]] [<-|[<-|[<-|[]]]];
  (split; [|split; [vm_compute; reflexivity|split; [intros _; vm_compute; reflexivity|vm_compute; reflexivity]]]);
  (split; [split; [apply las_fileb_ok; vm_compute; reflexivity|]; split; [apply no_schema_vlrb; vm_compute; reflexivity|];
           split; [repeat apply Forall_cons; try apply Forall_nil; vm_compute; reflexivity|];
           split; [vm_compute; reflexivity|intros _; vm_compute; discriminate]
          |split; [apply las_fileb_ok; vm_compute; reflexivity|]; split; [apply no_schema_vlrb; vm_compute; reflexivity|];
           split; [vm_compute; reflexivity|]; split; [vm_compute; apply Forall_nil|];
           split; [vm_compute; discriminate|split; vm_compute; reflexivity]]).
Qed.
Theorem C53_rewrite_refuted : exists F, standard F /\ exact_end F /\ forall sv xml doy year, rewrite_file sv xml doy year F = UB UBOutOfBounds.
Proof.
  exists (gapped 2 3). destruct (gapped_standard 2 3 ltac:(cbn; tauto) ltac:(cbn; tauto)) as (HS & HG & HX & _). split; [exact HS|]. split; [exact HX|].
  intros. apply C53_gap_undefined; [exact HS|rewrite HG; reflexivity].
Qed.
Print Assumptions C53_rewrite_refuted.

(** One or two bytes in between: as many zero bytes as the header and the VLRs
    take appear behind the first record; what the records leave of them stays at
    the end of the file. *)
Theorem C53_trailing_refuted : exists F G, standard F /\ exact_end F /\ f_npts F = 3 /\
  rewrite_file no_sv (fun _ => Throw ERuntime) 1 2012 F = Ok G /\ ~ exact_end G /\ length G = (length F + 167)%nat.
Proof.
  exists (gapped 0 2), (get_ok [] (rewrite_file no_sv (fun _ => Throw ERuntime) 1 2012 (gapped 0 2))).
  destruct (gapped_standard 0 2 ltac:(cbn; tauto) ltac:(cbn; tauto)) as (HS & HG & HX & _).
  split; [exact HS|]. split; [exact HX|]. split; [vm_compute; reflexivity|].
  destruct (C53_rewrite_partial no_sv (fun _ => Throw ERuntime) 1 2012 _ HS) as (G & E & _); [rewrite HG; discriminate|right; rewrite HG; discriminate|].
  split; [apply get_ok_ok; rewrite E; reflexivity|]. split.
  - assert (L : f_npts (get_ok [] (rewrite_file no_sv (fun _ => Throw ERuntime) 1 2012 (gapped 0 2))) = 3) by (vm_compute; reflexivity).
    intros X. unfold exact_end in X. rewrite L in X. specialize (X ltac:(lia)). revert X. vm_compute. discriminate.
  - vm_compute. reflexivity.
Qed.
Print Assumptions C53_trailing_refuted.

(** The rewritten file of version 1.0 has lost its source id. *)
Theorem C53_source_id_refuted : exists F, standard F /\ u_at F 4 2 = 256 /\ forall sv xml doy year, exists G, rewrite_file sv xml doy year F = Ok G /\ u_at G 4 2 = 0.
Proof.
  exists (firstn 5 (gapped 0 2) ++ [1] ++ skipn 6 (gapped 0 2)).
  set (F := firstn 5 _ ++ _).
  assert (HS : standard F).
  { split; [split; [apply las_fileb_ok; vm_compute; reflexivity|]; split; [apply no_schema_vlrb; vm_compute; reflexivity|];
           split; [repeat apply Forall_cons; try apply Forall_nil; vm_compute; reflexivity|];
           split; [vm_compute; reflexivity|intros _; vm_compute; discriminate]
          |split; [apply las_fileb_ok; vm_compute; reflexivity|]; split; [apply no_schema_vlrb; vm_compute; reflexivity|];
           split; [vm_compute; reflexivity|]; split; [vm_compute; apply Forall_nil|];
           split; [vm_compute; discriminate|split; vm_compute; reflexivity]]. }
  split; [exact HS|]. split; [vm_compute; reflexivity|]. intros sv xml doy year.
  assert (HG : gap F = 2) by (vm_compute; reflexivity).
  destruct (C53_rewrite_partial sv xml doy year F HS ltac:(rewrite HG; discriminate) ltac:(right; rewrite HG; discriminate)) as (G & E & P & _).
  exists G. split; [exact E|]. assert (V : u_at F 25 1 = 0) by (vm_compute; reflexivity). rewrite V in P. cbn [Z.eqb] in P.
  assert (S6 : u_at F 6 2 = 0) by (vm_compute; reflexivity). pose proof (f_equal ph_source P) as X. cbn [ph_source with_doff with_source] in X.
  rewrite S6 in X. exact X.
Qed.
Print Assumptions C53_source_id_refuted.

Example C53_instance : standard (gapped 2 0) /\ gap (gapped 2 0) = 0 /\ u_at (gapped 2 0) 25 1 <> 0 /\
  standard (gapped 2 2) /\ gap (gapped 2 2) = 2 /\ standard (gapped 0 2) /\ standard (gapped 2 3) /\ gap (gapped 2 3) = 3.
Proof.
  destruct (gapped_standard 2 0 ltac:(cbn; tauto) ltac:(cbn; tauto)) as (A1 & A2 & _ & A3).
  destruct (gapped_standard 2 2 ltac:(cbn; tauto) ltac:(cbn; tauto)) as (B1 & B2 & _).
  destruct (gapped_standard 0 2 ltac:(cbn; tauto) ltac:(cbn; tauto)) as (C1 & C2 & _).
  destruct (gapped_standard 2 3 ltac:(cbn; tauto) ltac:(cbn; tauto)) as (D1 & D2 & _).
  rewrite A3. split; [exact A1|]. split; [exact A2|]. split; [discriminate|]. split; [exact B1|]. split; [exact B2|]. split; [exact C1|]. split; [exact D1|exact D2].
Qed.

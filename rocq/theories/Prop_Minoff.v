(** C77: las2las --min-offset writes the records, their coordinates now stored
    relative to the smallest ones.  Vocabulary: Minoff_Spec.v. *)
From Coq Require Import ZArith List Bool Lia Lra String Reals.
From Coq Require Import ZifyBool ZifyNat.
Import ListNotations.
From Flocq Require Import Core.
From Verif Require Import Outcome Bytes Float64 Float64_Proofs CStr Vlr_Model Schema_Model Schema_Spec Schema_Api Schema_Proofs Header_Model Point_Model Point_Spec Point_Api Point_Proofs Coord_Api Coord_Proofs Coord_Header Stream_Model Stream_Proofs
  IO_Spec Reader_Proofs Reader_Vlrs Reader_Model Reader_Spec Reader_Schema Reader_Api Reader_Open Reader_Hist Reader_Filter Writer_Model Writer_Api Writer_Proofs Writer_File
  Writer_Append IO_Samples Prop_Reader Iter_Spec Iter_Model Iter_Proofs Rewrite_Proofs Rewrite_Gap Rewrite_Read Prop_Rewrite Summary_Model Summary_Spec Summary_Proofs Prop_Summary Text_Model Text_Proofs
  Las2las_Spec Las2las_Copy Las2las_Model Las2las_Summary Las2las_File Las2las_Loop Las2las_Points Las2las_Main Las2las_Split Prop_Las2las
  Prop_Coord Cli_Model Cli_Spec Cli_Proofs Hdropt_Model Hdropt_Spec Hdropt_Write Hdropt_Proofs Hdropt_Main Prop_Hdropt3
  Cols_Spec Cols_Proofs Txt_Spec Lasinfo_Spec Lasinfo_Model Lasinfo_Proofs Lasinfo_Main Minoff_Spec Minoff_Model Minoff_Proofs Minoff_Move Minoff_Main.
Local Open Scope Z_scope.
Local Notation length := List.length (only parsing).

Theorem C77_min_offset_partial : forall t F keep fuel, real_tool t -> changeable F no_change -> filterable F keep -> judges_alike F keep -> (Z.to_nat (f_npts F) < fuel)%nat ->
  exists r, reader_open (t_xml t) (t_doy t) (t_year t) F = Ok r /\
    let ds := delivered F (r_hdr r) keep in
    ds <> [] -> roomy F ds ->
    exists o, least_offset F ds o /\
      (clear_move F o -> exists G, las2las_min t (the_filter keep) tt fuel F = Ok G /\ offset_edited F o ds G).
Proof.
  intros t F keep fuel TT HC HK J Hf. pose proof HC as (((HSt & HG & Hg1 & HSS) & _) & _). pose proof HSt as (HA & HP). pose proof HA as (HF & HN & FSc & HCm).
  destruct (plain_header (t_xml t) (t_doy t) (t_year t) F HP) as (r & E & Sh & HW & Hv & Hh & Hd & _ & _ & Hp).
  exists r. split; [exact E|]. cbv zeta. intros Nds RM.
  assert (IR : rinv F r).
  { destruct (open_ok (t_xml t) (t_doy t) (t_year t) F HF HN) as (r' & E' & X). rewrite E in E'. apply Writer_Append.Ok_inj in E'. subst r'. apply X. }
  destruct (summarize_known t F keep fuel r HSt HSS HK Hf IR) as (h1 & Sh1 & _ & SM).
  assert (EQ1 : delivered F h1 keep = delivered F (r_hdr r) keep) by now apply delivered_alike. rewrite EQ1 in SM.
  set (ds := delivered F (r_hdr r) keep) in *.
  destruct (SM Nds) as (r2 & a & dmn & ES & I2 & Od & TX & TY & TZ & LS).
  assert (HD : recs_ok F ds) by now apply delivered_recs.
  assert (OF : Forall (of_file F h1) ds).
  { destruct HD as (D & _). eapply Forall_impl; [|exact D]. intros d (B & L). split; [apply (file_point F h1 d HP Sh1 B L)|now apply file_shows]. }
  destruct (new_offset F h1 ds AxX _ HSS OF RM (LS AxX)) as (x & EX & FX & BX & SX).
  destruct (new_offset F h1 ds AxY _ HSS OF RM (LS AxY)) as (y & EY & FY & BY & SY).
  destruct (new_offset F h1 ds AxZ _ HSS OF RM (LS AxZ)) as (z & EZ & FZ & BZ & SZ).
  exists (x, y, z). split; [intros ax; exists (coordinate F ax dmn); split; [apply LS|destruct ax; assumption]|].
  intros CM. destruct (delivered_reset t F keep fuel r2 HSt HK Hf I2) as (r3 & r4 & ER & Sh3 & RA & I4).
  assert (EQ3 : delivered F (r_hdr r3) keep = ds) by now apply delivered_alike. rewrite EQ3 in RA.
  destruct (min_part t F (x, y, z) (r_hdr r) (r_hdr r3) ds TT HC Sh HW Hv Hh Hd Hp Sh3 HD Nds) as (ps' & w0 & w & q & G & G' & E0 & F1 & EP & EQ & EC & EG & FI).
  - intros ax. destruct ax; assumption.
  - intros ax. destruct ax; assumption.
  - intros ax. destruct ax; assumption.
  - exact CM.
  - exists G'. split; [|exact FI]. unfold las2las_min. rewrite E. cbn [obind]. rewrite ES. cbn [obind]. rewrite TT, TX, TY, TZ, EX, EY, EZ. cbn [obind].
    rewrite ER. cbn [obind]. change (set_offset (r_hdr r) x y z) with (h_upd_offset (r_hdr r) (x, y, z)). rewrite E0. cbn [obind].
    rewrite (shift_feeds _ _ _ _ _ _ _ _ _ _ RA), (shift_fed _ _ _ F1 _ _ _ _ EQ EP). cbn [obind]. rewrite EC. cbn [obind].
    destruct (reset_ok (t_xml t) F r4 HF HN FSc I4) as (r5 & -> & _). cbn [obind]. exact EG.
Qed.
Print Assumptions C77_min_offset_partial.

(** When no record is delivered, the run ends with an exception: no file. *)
Theorem C77_empty : forall t F keep fuel r, standard F -> sane_scaling F -> filterable F keep -> judges_alike F keep -> (Z.to_nat (f_npts F) < fuel)%nat ->
  reader_open (t_xml t) (t_doy t) (t_year t) F = Ok r -> delivered F (r_hdr r) keep = [] -> las2las_min t (the_filter keep) tt fuel F = Throw ERuntime.
Proof.
  intros t F keep fuel r HSt HSS HK J Hf E D0. pose proof HSt as (HA & HP). pose proof HA as (HF & HN & _).
  destruct (plain_header (t_xml t) (t_doy t) (t_year t) F HP) as (r' & E' & Sh & _). rewrite E in E'. apply Writer_Append.Ok_inj in E'. subst r'.
  assert (IR : rinv F r).
  { destruct (open_ok (t_xml t) (t_doy t) (t_year t) F HF HN) as (r' & E' & X). rewrite E in E'. apply Writer_Append.Ok_inj in E'. subst r'. apply X. }
  destruct (summarize_known t F keep fuel r HSt HSS HK Hf IR) as (h1 & Sh1 & SN & _).
  unfold las2las_min. rewrite E. cbn [obind]. rewrite SN; [reflexivity|]. rewrite <- D0. now apply delivered_alike.
Qed.
Print Assumptions C77_empty.

(** ** A file with an all-zero record: two records, scale 1, offset 0 *)
Definition zeros : list Z := repeat 0 20.
Definition low : list Z := repeat 254 20.
Definition span : list Z := raw_file 2 227 0 0 20 2 (zeros ++ low).
Lemma span_translatable : translatable span.
Proof. split; [standard_file|]. split; [vm_compute; discriminate|]. split; [left; vm_compute; discriminate|]. one_scaling span. Qed.
Lemma span_changeable : changeable span no_change.
Proof.
  split; [|vm_compute; discriminate]. split; [exact span_translatable|]. split; [exact I|]. split; [exact I|]. split; [constructor|].
  split; [vm_compute; reflexivity|]. intros X. exfalso. vm_compute in X. discriminate.
Qed.
Lemma span_bits ax : u_at span (131 + 8 * place ax) 8 = 0x3FF0000000000000 /\ u_at span (155 + 8 * place ax) 8 = 0.
Proof. destruct ax; split; vm_compute; reflexivity. Qed.
Lemma span_scale ax : file_scale span ax = f64_of_Z 1 /\ file_offset span ax = f64_of_bits 0.
Proof. unfold file_scale, file_offset. destruct (span_bits ax) as (-> & ->). now rewrite one_bits. Qed.
Lemma span_raw ax : raw_value (raw_attr ax) zeros = 0 /\ raw_value (raw_attr ax) low = -16843010.
Proof. destruct ax; split; vm_compute; reflexivity. Qed.
Lemma span_roomy : roomy span [zeros; low].
Proof.
  intros ax. destruct (span_scale ax) as (-> & ->). destruct (span_raw ax) as (R1 & R2). split.
  - change (f64_R (f64_of_bits 0)) with 0%R. destruct (of_Z_ok 1 ltac:(lia)) as (_ & ->). rewrite Rabs_R0. lra.
  - intros d d' [<-|[<-|[]]] [<-|[<-|[]]]; rewrite ?R1, ?R2; change (2 ^ 31) with 2147483648; lia.
Qed.
Lemma span_coords ax : (Rabs (f64_R (coordinate span ax zeros)) <= / 1048576)%R /\ (Rabs (f64_R (coordinate span ax low) + 16843010) <= / 1048576)%R /\
  f64_fin (coordinate span ax low) = true /\ f64_fin (coordinate span ax zeros) = true /\ (Rabs (f64_R (coordinate span ax low)) <= bpow radix2 999)%R.
Proof.
  destruct (span_scale ax) as (S1 & S2). destruct (span_raw ax) as (R1 & R2). unfold coordinate. rewrite S1, S2, R1, R2.
  destruct (of_Z_ok 1 ltac:(lia)) as (_ & O1).
  destruct (descale_err (f64_of_Z 1) (f64_of_bits 0) 0 one_scale zero_offset) as (F0 & E0); [rewrite Rabs_R0; lra|].
  destruct (descale_err (f64_of_Z 1) (f64_of_bits 0) (-16843010) one_scale zero_offset) as (F1 & E1); [rewrite <- abs_IZR; apply IZR_le; lia|].
  unfold descale in *. change (f64_R (f64_of_bits 0)) with 0%R in *. rewrite O1, Rabs_R1, Rabs_R0 in *.
  set (a := f64_R (f64_add (f64_mul (f64_of_Z 0) (f64_of_Z 1)) (f64_of_bits 0))) in *.
  set (b := f64_R (f64_add (f64_mul (f64_of_Z (-16843010)) (f64_of_Z 1)) (f64_of_bits 0))) in *. unfold u64 in *.
  assert (B1 : (Rabs (b + 16843010) <= / 1048576)%R) by (replace (b + 16843010)%R with (b - (-16843010 * 1 + 0))%R by ring; lra).
  split; [replace a with (a - (0 * 1 + 0))%R by ring; lra|]. split; [exact B1|]. split; [exact F1|]. split; [exact F0|].
  apply Rabs_le_inv in B1. apply Rle_trans with (bpow radix2 30); [|apply bpow_le; lia]. change (bpow radix2 30) with 1073741824%R. apply Rabs_le. lra.
Qed.
Lemma span_offset o ax : least_offset span [zeros; low] o -> (-16843011 <= f64_R (axis_of o ax) <= -16843009)%R.
Proof.
  intros L. destruct (L ax) as (m & (Im & Lm) & T). destruct (span_coords ax) as (C0 & C1 & F1 & F0 & B).
  apply Rabs_le_inv in C0. apply Rabs_le_inv in C1. cbn [map In] in Im. destruct Im as [<-|[<-|[]]].
  - exfalso. assert (f64_lt (coordinate span ax low) (coordinate span ax zeros) = true) by (apply f64_lt_R; [exact F1|exact F0|lra]).
    rewrite (Lm (coordinate span ax low)) in H; [discriminate|]. cbn [map In]. auto.
  - destruct (text16_close _ F1 B) as (y & E & _ & D). rewrite T in E. apply Writer_Append.Ok_inj in E. rewrite E.
    assert (TN : (bpow radix2 (-1075) <= / 1048576)%R) by (change (/ 1048576)%R with (bpow radix2 (-20)); apply bpow_le; lia).
    set (c := f64_R (coordinate span ax low)) in *. assert (A : (Rabs c <= 16843011)%R) by (apply Rabs_le; lra).
    assert (D' : (Rabs (f64_R y - c) <= / 2)%R) by lra. apply Rabs_le_inv in D'. lra.
Qed.
Lemma span_clear o : least_offset span [zeros; low] o -> clear_move span o.
Proof.
  intros L. right. exists AxX. pose proof (span_offset o AxX L) as B. destruct (span_scale AxX) as (_ & ->). change (f64_R (f64_of_bits 0)) with 0%R.
  apply Rle_trans with 1%R; [change 1%R with (bpow radix2 0); apply bpow_le; lia|]. rewrite Rabs_left; lra.
Qed.
Definition plain_tool : tool := mkTool no_sv (fun _ => Throw ERuntime) 1 2012 text16.

Theorem C77_instance : real_tool plain_tool /\ changeable span no_change /\ filterable span None /\ judges_alike span None /\
  (forall h, delivered span h None = [zeros; low]) /\ roomy span [zeros; low] /\ all_zero zeros /\ ~ all_zero low /\
  (forall o, least_offset span [zeros; low] o -> clear_move span o) /\
  (filterable span (Some (fun _ => false)) /\ judges_alike span (Some (fun _ => false)) /\ forall h, delivered span h (Some (fun _ => false)) = []).
Proof.
  split; [reflexivity|]. split; [exact span_changeable|]. split; [intros X; congruence|]. split; [exact I|].
  split; [intros h; vm_compute; reflexivity|]. split; [exact span_roomy|]. split; [vm_compute; reflexivity|]. split; [vm_compute; discriminate|].
  split; [exact span_clear|]. split; [intros _; split; [intros _; vm_compute; reflexivity|vm_compute; reflexivity]|]. split; [cbn [judges_alike]; reflexivity|]. intros h. vm_compute. reflexivity.
Qed.

(** An all-zero record keeps its bytes, so its point jumps: here by more than a
    million times what storing a coordinate may cost. *)
Theorem C77_zero_record_refuted : exists t F r o G, real_tool t /\ changeable F no_change /\ reader_open (t_xml t) (t_doy t) (t_year t) F = Ok r /\
  least_offset F (records_from F 0) o /\ las2las_min t (the_filter None) tt 10 F = Ok G /\
  exists d d', nth_error (records_from F 0) 0 = Some d /\ nth_error (records_from G 0) 0 = Some d' /\
    forall ax, (1000000 * quantum (file_scale F ax) (file_offset G ax) < Rabs (f64_R (coordinate G ax d') - f64_R (coordinate F ax d)))%R.
Proof.
  destruct C77_instance as (RT & CH & FI & JA & DL & RO & _).
  destruct (C77_min_offset_partial plain_tool span None 10 RT CH FI JA) as (r & E & K).
  { replace (f_npts span) with 2 by (vm_compute; reflexivity). cbv. lia. }
  cbv zeta in K. rewrite (DL (r_hdr r)) in K. destruct K as (o & LO & W); [discriminate|exact RO|]. destruct (W (span_clear o LO)) as (G & EG & OE).
  exists plain_tool, span, r, o, G. split; [exact RT|]. split; [exact CH|]. split; [exact E|].
  assert (RS : records_from span 0 = [zeros; low]) by (vm_compute; reflexivity). rewrite RS. split; [exact LO|]. split; [exact EG|].
  destruct OE as (_ & MV & OG & _ & _ & mx & mn & _ & PUB). inversion MV as [|d d' l l' (_ & _ & MZ & _) M2 EA EB]. exists zeros, d'. split; [reflexivity|]. split; [reflexivity|].
  assert (ED : d' = zeros) by (apply MZ; vm_compute; reflexivity). rewrite ED.
  assert (SG : forall ax, file_scale G ax = file_scale span ax) by (apply axes_scale; rewrite PUB, lossy_scale; reflexivity).
  intros ax. pose proof (span_offset o ax LO) as OB. destruct (span_coords ax) as (C0 & _).
  unfold coordinate at 1. rewrite SG, OG. destruct (span_scale ax) as (-> & S2). destruct (span_raw ax) as (-> & _).
  destruct (of_Z_ok 1 ltac:(lia)) as (_ & O1).
  assert (FO : offset_ok (axis_of o ax)).
  { split.
    - destruct (LO ax) as (m & (Im & _) & T). destruct (span_coords ax) as (_ & _ & F1 & F0 & B1).
      cbn [map In] in Im. destruct Im as [<-|[<-|[]]].
      + assert (B0 : (Rabs (f64_R (coordinate span ax zeros)) <= bpow radix2 999)%R) by (eapply Rle_trans; [exact C0|]; change (/ 1048576)%R with (bpow radix2 (-20)); apply bpow_le; lia).
        destruct (text16_close _ F0 B0) as (y & Ey & Fy & _). rewrite T in Ey. apply Writer_Append.Ok_inj in Ey. now rewrite Ey.
      + destruct (text16_close _ F1 B1) as (y & Ey & Fy & _). rewrite T in Ey. apply Writer_Append.Ok_inj in Ey. now rewrite Ey.
    - apply Rle_trans with (bpow radix2 30); [|apply bpow_le; lia]. change (bpow radix2 30) with 1073741824%R. apply Rabs_le. lra. }
  destruct (descale_err (f64_of_Z 1) (axis_of o ax) 0 one_scale FO) as (_ & D); [rewrite Rabs_R0; lra|].
  unfold descale in D. unfold quantum. rewrite O1, Rabs_R1 in *. unfold u64 in *.
  set (c := f64_R (f64_add (f64_mul (f64_of_Z 0) (f64_of_Z 1)) (axis_of o ax))) in *. set (v := f64_R (axis_of o ax)) in *. set (z := f64_R (coordinate span ax zeros)) in *.
  assert (AV : (Rabs v <= 16843011)%R) by (apply Rabs_le; lra).
  assert (D' : (Rabs (c - v) <= 1)%R) by (replace (c - v)%R with (c - (0 * 1 + v))%R by ring; lra).
  apply Rabs_le_inv in D'. apply Rabs_le_inv in C0. rewrite (Rabs_left (c - z)) by lra. lra.
Qed.
Print Assumptions C77_zero_record_refuted.

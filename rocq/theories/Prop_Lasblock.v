(** C64: lasblock --write-points puts every point in one of its files.
    Model: Lasblock_Model.v; vocabulary: Las2las_Spec.v, Chipper_Spec.v. *)
From Coq Require Import ZArith List Bool Lia String Permutation.
From Coq Require Import ZifyBool ZifyNat.
Import ListNotations.
From Verif Require Import Outcome Bytes Float64 Float64_Proofs CStr Vlr_Model Schema_Model Schema_Spec Header_Model Point_Model Point_Spec Point_Api
  Coord_Api Coord_Proofs Coord_Header Stream_Model Stream_Proofs IO_Spec Reader_Proofs Reader_Vlrs Reader_Model Reader_Spec Reader_Schema Reader_Api Reader_Open Reader_Hist
  Writer_Model Writer_Api Rewrite_Proofs Prop_Reader Prop_Rewrite Iter_Spec Iter_Proofs IO_Samples Prop_Coord Prop_Summary
  Summary_Spec Text_Model Text_Proofs Las2las_Spec Las2las_Model Las2las_Summary Las2las_Points Las2las_Main Las2las_Split Prop_Las2las
  Chipper_Model Chipper_Spec Chipper_Lists Chipper_Run Chipper_Load Chipper_Partition Chipper_Main Prop_Chipper Lasblock_Model Lasblock_Proofs.
Local Open Scope Z_scope.
Local Notation length := List.length (only parsing).

(** Files and capacities the theorems are about: at least one point, and not so
    many points and blocks that the chipper's sums drift (C36). *)
Definition blockable (F : list Z) (cap : Z) : Prop :=
  1 <= f_npts F /\ 0 < cap < 2 ^ 32 /\ f_npts F * blocks_wanted cap (f_npts F) <= 2 ^ 50.

Lemma F2_len {A B} (R : A -> B -> Prop) l m : Forall2 R l m -> length l = length m.
Proof. induction 1; cbn [List.length]; congruence. Qed.
Lemma plane_finite h ds pts : sane_header h -> Forall (of_header h) (points_of h ds) -> Forall2 (plane h) ds pts -> finite_points pts.
Proof.
  intros SH FO F2. unfold finite_points. induction F2 as [|d xy ds pts (X & Y) F2 IH]; [constructor|]. cbn [points_of map] in FO.
  destruct (Forall_inv FO) as (W & _). apply Forall_inv_tail in FO. constructor; [|now apply IH].
  destruct (raw_get _ AxX W) as (nx & Gx & Rx). destruct (raw_get _ AxY W) as (ny & Gy & Ry).
  rewrite (coord_of_raw AxX _ nx Gx) in X. rewrite (coord_of_raw AxY _ ny Gy) in Y. cbn [p_hdr] in X, Y. apply Writer_Append.Ok_inj in X, Y. rewrite <- X, <- Y.
  destruct (SH AxX) as (S1 & _ & S3). destruct (SH AxY) as (T1 & _ & T3).
  split; [apply (descale_R _ _ nx S1 S3 Rx)|apply (descale_R _ _ ny T1 T3 Ry)].
Qed.

(** Loading: what the chipper gets of a file. *)
Lemma loaded t F fuel : translatable F -> (Z.to_nat (f_npts F) < fuel)%nat ->
  exists r pts r1, reader_open (t_xml t) (t_doy t) (t_year t) F = Ok r /\ load_points fuel r = Ok (pts, r1) /\ rinv F r1 /\ r_hdr r1 = r_hdr r /\
    Z.of_nat (length pts) = f_npts F /\ finite_points pts /\ h_npts (r_hdr r) = f_npts F.
Proof.
  intros (HS & HG & Hv & SS) Hf. pose proof HS as (HA & HP). pose proof HA as (HF & HN & FS & HC). destruct (fields_nonneg F (proj1 HF)) as (_ & N0 & _).
  destruct (open_reads (t_xml t) (t_doy t) (t_year t) F HA) as (r & E & R & _).
  destruct (plain_header (t_xml t) (t_doy t) (t_year t) F HP) as (r' & E' & Hsh & _). rewrite E in E'. apply Writer_Append.Ok_inj in E'. subst r'.
  destruct (load_points_ok fuel F 0 _ r HP R ltac:(lia) ltac:(rewrite Z.sub_0_r; exact Hf)) as (pts & r1 & E1 & F2 & I1 & H1).
  exists r, pts, r1. split; [exact E|]. split; [exact E1|]. split; [exact I1|]. split; [exact H1|]. split; [|split; [|exact (shows_npts F _ Hsh)]].
  - rewrite <- (F2_len _ _ _ F2). unfold records_from. rewrite map_length, seq_length. lia.
  - apply (plane_finite (r_hdr r) (records_from F 0)); [exact (header_sane F _ HF SS Hsh)| |exact F2].
    apply (points_header F _ _ HP Hsh). exact (delivered_recs F (r_hdr r) None HS).
Qed.

Lemma Forall_concat_in {A} (P : A -> Prop) (ls : list (list A)) l : Forall P (List.concat ls) -> In l ls -> Forall P l.
Proof. intros H I. apply Forall_forall. intros x Hx. rewrite Forall_forall in H. apply H. apply in_concat. eauto. Qed.

(** The blocks: every point number in exactly one block, as many blocks as the
    capacity asks for, none empty or over the capacity; file [k] is the file of
    the points of block [k], finished as las2las finishes its files (C62). *)
Theorem C64_tiles_partial : forall t srt junk F cap fuel, real_tool t -> is_sort srt -> translatable F -> blockable F cap -> (Z.to_nat (f_npts F) < fuel)%nat ->
  exists r (blocks : list (list Z)) gs, reader_open (t_xml t) (t_doy t) (t_year t) F = Ok r /\ lasblock t srt junk cap fuel F = Ok gs /\
    Permutation (List.concat blocks) (zseq 0 (Z.to_nat (f_npts F))) /\
    Z.of_nat (length blocks) = blocks_wanted cap (f_npts F) /\
    Forall (fun b => 1 <= Z.of_nat (length b) <= cap) blocks /\
    Forall2 (fun b g => finished F (r_hdr r) (map (file_record F) b) g) blocks gs.
Proof.
  intros t srt junk F cap fuel TT SO HT (B1 & B2 & B3) Hf. destruct (loaded t F fuel HT Hf) as (r & pts & r1 & E & EL & I1 & H1 & LP & FP & HN).
  pose proof HT as (HS & HG & Hv & SS). pose proof HS as (HA & _). pose proof HA as (HF & _). destruct (fields_nonneg F (proj1 HF)) as (_ & N0 & _).
  assert (CI : chip_input false cap (f_npts F) pts) by (split; [exact FP|lia|lia|now rewrite LP|lia]).
  destruct (chip_input_ok srt junk false cap (f_npts F) pts SO CI) as (seen & EC & PM & LN & _).
  destruct (C37_block_sizes_partial srt junk false cap (f_npts F) pts SO CI) as (seen' & EC' & _ & SZ & _). rewrite EC in EC'. apply Writer_Append.Ok_inj in EC'. subst seen'.
  unfold all_ids in PM. assert (LP' : length pts = Z.to_nat (f_npts F)) by lia. rewrite LP' in PM. rewrite LP in LN.
  unfold chipped in EC. destruct (chip_run srt junk false cap (f_npts F) pts) as [c|e|u] eqn:ER; try discriminate. cbn [obind] in EC.
  assert (IDS : Forall (fun i => 0 <= i < f_npts F) (List.concat (map cb_ids seen))).
  { apply Forall_forall. intros i Hi. apply (Permutation_in _ PM) in Hi. apply zseq_In in Hi. lia. }
  assert (FO : Forall (fun b => Forall (fun i => 0 <= i < f_npts F) (cb_ids b) /\ 1 <= Z.of_nat (length (cb_ids b)) < 2 ^ 32) seen).
  { apply Forall_forall. intros b Hb. split; [apply (Forall_concat_in _ (map cb_ids seen)); [exact IDS|now apply in_map]|]. specialize (SZ b Hb). lia. }
  destruct (h_min (r_hdr r)) as [[x0 y0] z0] eqn:E0. destruct (h_max (r_hdr r)) as [[x1 y1] z1] eqn:E1.
  assert (EB : Las2las_Copy.rebound (r_hdr r) x0 y0 z0 x1 y1 z1 = r_hdr r) by (revert E0 E1; destruct (r_hdr r); unfold Las2las_Copy.rebound, set_max, set_min; cbn; intros -> ->; reflexivity).
  destruct (tiles_ok t F HS HG Hv SS TT r E c (c_blocks c) seen EC FO r1 x0 y0 z0 x1 y1 z1 I1 H1) as (gs & EG & F2). rewrite EB in EG.
  exists r, (map cb_ids seen), gs. split; [exact E|]. split.
  { unfold lasblock. rewrite E. cbn [obind]. rewrite EL. cbn [obind]. rewrite H1, HN, Z.mod_small by lia. rewrite ER. cbn [obind]. exact EG. }
  split; [exact PM|]. split; [rewrite map_length; exact LN|]. split.
  - apply Forall_map, Forall_forall. exact SZ.
  - clear - F2. induction F2; cbn [map]; constructor; auto.
Qed.
Print Assumptions C64_tiles_partial.

(** Together the files have the records of the input, each as often as it occurs
    there, and none has more than the capacity. *)
Theorem C64_nothing_lost : forall t srt junk F cap fuel, real_tool t -> is_sort srt -> translatable F -> blockable F cap -> (Z.to_nat (f_npts F) < fuel)%nat ->
  exists gs, lasblock t srt junk cap fuel F = Ok gs /\
    Permutation (List.concat (map (fun g => records_from g 0) gs)) (records_from F 0) /\
    Z.of_nat (length gs) = blocks_wanted cap (f_npts F) /\ Forall (fun g => 1 <= f_npts g <= cap) gs.
Proof.
  intros t srt junk F cap fuel TT SO HT HB Hf. destruct (C64_tiles_partial t srt junk F cap fuel TT SO HT HB Hf) as (r & bs & gs & E & EL & PM & LN & SZ & F2).
  exists gs. split; [exact EL|].
  assert (RE : map (fun g => records_from g 0) gs = map (map (file_record F)) bs).
  { clear - F2. induction F2 as [|b g bs gs ((_ & R & _) & _) F2 IH]; cbn [map]; [reflexivity|]. now rewrite R, IH. }
  assert (RF : records_from F 0 = map (file_record F) (zseq 0 (Z.to_nat (f_npts F)))) by (unfold records_from, zseq; rewrite Z.sub_0_r, map_map; reflexivity).
  rewrite RE, <- concat_map, RF. split; [now apply Permutation_map|]. split; [rewrite <- (F2_len _ _ _ F2); exact LN|].
  clear - F2 SZ. induction F2 as [|b g bs gs FI F2 IH]; [constructor|]. pose proof (Forall_inv SZ) as S1. apply Forall_inv_tail in SZ. constructor; [|now apply IH].
  destruct FI as ((_ & R & _) & _ & _ & FN). cbv beta in S1.
  destruct (FN ltac:(intros X; apply (f_equal (@List.length _)) in X; rewrite map_length in X; cbn [List.length] in X; lia)) as (mx & mn & rns & _ & _ & P).
  assert (N : f_npts g = Z.of_nat (length (map (file_record F) b))).
  { change (f_npts g) with (ph_npts (pub_of_file g)). rewrite P. unfold twice. destruct (_ =? _); reflexivity. }
  rewrite map_length in N. lia.
Qed.
Print Assumptions C64_nothing_lost.

(** A file without points crashes the program. *)
Lemma chip_run_empty srt junk threshold count : is_sort srt -> 0 < threshold -> chip_run srt junk false threshold count [] = UB UBOutOfBounds.
Proof.
  intros SO HT. assert (W : forall lt, strict_weak_on lt []) by (intros lt; split; [|split]; intros; contradiction).
  assert (E : forall lt, srt lt [] = []) by (intros lt; apply Permutation_nil; apply (SO lt [] (W lt))).
  unfold chip_run, load. cbn [map numbered]. rewrite !E. cbn [relink obind]. rewrite !E. cbn [relink obind c_x List.length].
  change (u32 (Z.of_nat 0)) with 0. unfold partition. rewrite num_partitions_ok by lia. cbn [obind].
  replace (blocks_wanted threshold 0) with 0 by (unfold blocks_wanted; symmetry; apply Z.div_small; lia). reflexivity.
Qed.
Theorem C64_empty_refuted : forall t srt junk F cap fuel, is_sort srt -> translatable F -> f_npts F = 0 -> 0 < cap < 2 ^ 32 -> (0 < fuel)%nat ->
  lasblock t srt junk cap fuel F = UB UBOutOfBounds.
Proof.
  intros t srt junk F cap fuel SO HT H0 HC Hf. destruct (loaded t F fuel HT ltac:(rewrite H0; exact Hf)) as (r & pts & r1 & E & EL & I1 & H1 & LP & FP & HN).
  assert (pts = []) by (destruct pts; [reflexivity|cbn [List.length] in LP; lia]). subst pts.
  unfold lasblock. rewrite E. cbn [obind]. rewrite EL. cbn [obind]. rewrite Z.mod_small by lia. rewrite chip_run_empty by (assumption || lia). reflexivity.
Qed.
Print Assumptions C64_empty_refuted.
(** So does a capacity of zero (or a multiple of 2^32), for every file. *)
Theorem C64_zero_refuted : forall t srt junk F cap fuel, is_sort srt -> translatable F -> 1 <= f_npts F -> cap mod 2 ^ 32 = 0 -> (Z.to_nat (f_npts F) < fuel)%nat ->
  lasblock t srt junk cap fuel F = UB UBDivZero.
Proof.
  intros t srt junk F cap fuel SO HT H0 HC Hf. destruct (loaded t F fuel HT Hf) as (r & pts & r1 & E & EL & I1 & H1 & LP & FP & HN).
  pose proof HT as ((HA & _) & _). pose proof HA as (HF & _). destruct (fields_nonneg F (proj1 HF)) as (_ & N0 & _).
  unfold lasblock. rewrite E. cbn [obind]. rewrite EL. cbn [obind]. rewrite HC.
  unfold chip_run. destruct (Chipper_Load.load_ok srt junk (repeat ref0 (Z.to_nat (h_npts (r_hdr r1)))) pts SO FP) as (c & -> & _); [intros ->; cbn [List.length] in LP; lia|lia|]. reflexivity.
Qed.
Print Assumptions C64_zero_refuted.

(** The bounds of a file are those of its points to 16 digits, and a point may
    lie outside them. *)
Theorem C64_bounds_refuted : forall t srt junk, real_tool t -> is_sort srt -> exists F, translatable F /\ blockable F 1 /\
  exists r G, reader_open (t_xml t) (t_doy t) (t_year t) F = Ok r /\ lasblock t srt junk 1 5 F = Ok [G] /\
  exists d x, In d (records_from G 0) /\ get_coord AxX (mkPoint d (r_hdr r)) = Ok x /\ f64_lt (f64_of_bits (on_axis AxX (ph_max (pub_of_file G)))) x = true.
Proof.
  intros t srt junk TT SO. exists tenth_file. destruct tenth_translatable as (HT & HE & HN). split; [exact HT|].
  assert (HB : blockable tenth_file 1) by (unfold blockable; rewrite HN; vm_compute; split; [discriminate|split; [split; reflexivity|discriminate]]). split; [exact HB|].
  destruct (C64_tiles_partial t srt junk tenth_file 1 5 TT SO HT HB ltac:(rewrite HN; cbn; lia)) as (r & bs & gs & E & EL & PM & LN & SZ & F2).
  rewrite HN in LN, PM. change (blocks_wanted 1 1) with 1 in LN. destruct bs as [|b [|b2 bs]]; cbn [List.length] in LN; try lia.
  inversion F2 as [|b' G' bs' gs' FI F2']; subst. inversion F2'; subst. cbn [List.concat] in PM. rewrite app_nil_r in PM.
  assert (b = [0]) by (apply Permutation_sym, Permutation_length_1_inv in PM; exact PM). subst b.
  exists r, G'. split; [exact E|]. split; [exact EL|].
  apply (tenth_beyond t r G' E).
  assert (RT : map (file_record tenth_file) [0] = [[3; 0; 0; 0] ++ repeat 0 16]) by (vm_compute; reflexivity). rewrite <- RT. exact FI.
Qed.
Print Assumptions C64_bounds_refuted.

(** ** The hypotheses can be met *)
Example C64_instance : exists t srt, real_tool t /\ is_sort srt /\ translatable (gapped 2 0) /\ blockable (gapped 2 0) 2 /\
  (forall junk, exists g1 g2, lasblock t srt junk 2 5 (gapped 2 0) = Ok [g1; g2] /\ f_npts g1 + f_npts g2 = 3).
Proof.
  exists (mkTool no_sv any_xml 1 2000 text16), insertion_sort. split; [reflexivity|]. split; [exact a_sort_exists|].
  assert (HT : translatable (gapped 2 0)) by (apply gapped_translatable; cbn; tauto). split; [exact HT|].
  assert (HN : f_npts (gapped 2 0) = 3) by (vm_compute; reflexivity).
  assert (HB : blockable (gapped 2 0) 2) by (unfold blockable; rewrite HN; vm_compute; split; [discriminate|split; [split; reflexivity|discriminate]]). split; [exact HB|].
  intros junk. destruct (C64_nothing_lost (mkTool no_sv any_xml 1 2000 text16) insertion_sort junk (gapped 2 0) 2 5 eq_refl a_sort_exists HT HB ltac:(rewrite HN; cbn; lia)) as (gs & E & P & L & F).
  rewrite HN in L. change (blocks_wanted 2 3) with 2 in L. destruct gs as [|g1 [|g2 [|]]]; cbn [List.length] in L; try lia. exists g1, g2. split; [exact E|].
  apply Permutation_length in P. cbn [map List.concat] in P. rewrite !app_length in P. unfold records_from in P. rewrite !map_length, !seq_length, HN in P. cbn [List.length] in P.
  pose proof (Forall_inv F) as F1. pose proof (Forall_inv (Forall_inv_tail F)) as F2. cbv beta in F1, F2. lia.
Qed.
Definition no_points : list Z := raw_file 2 227 0 0 20 0 [].
Example C64_empty_instance : translatable no_points /\ f_npts no_points = 0.
Proof.
  split; [|vm_compute; reflexivity].
  split; [|split; [vm_compute; discriminate|split; [left; vm_compute; discriminate|]]].
  - split; [split; [apply las_fileb_ok; vm_compute; reflexivity|]; split; [apply no_schema_vlrb; vm_compute; reflexivity|];
           split; [repeat apply Forall_cons; try apply Forall_nil; vm_compute; reflexivity|];
           split; [vm_compute; reflexivity|intros X; exfalso; vm_compute in X; discriminate]
          |split; [apply las_fileb_ok; vm_compute; reflexivity|]; split; [apply no_schema_vlrb; vm_compute; reflexivity|];
           split; [vm_compute; reflexivity|]; split; [vm_compute; apply Forall_nil|];
           split; [vm_compute; discriminate|split; vm_compute; reflexivity]].
  - intros k Hk. cbv zeta.
    assert (B : u_at no_points (131 + 8 * k) 8 = 0x3FF0000000000000 /\ u_at no_points (155 + 8 * k) 8 = 0).
    { destruct k as [|[|[|]]]; [split; vm_compute; reflexivity|split; vm_compute; reflexivity|split; vm_compute; reflexivity|lia]. }
    destruct B as (-> & ->). rewrite one_bits. split; [exact one_scale|]. split; [vm_compute; reflexivity|exact zero_offset].
Qed.

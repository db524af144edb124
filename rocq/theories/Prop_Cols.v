(** C70: the contents of las2col's column files.  Cols_Spec says what they are. *)
From Coq Require Import ZArith List Bool Lia String Ascii Reals Lra Permutation.
From Coq Require Import ZifyBool ZifyNat.
Import ListNotations.
From Flocq Require Import Core BinarySingleNaN Binary Bits.
From Verif Require Import Outcome Bytes Float64 Float64_Proofs Bounds_Proofs Vlr_Model Schema_Model Header_Model Point_Model Point_Spec Point_Api Coord_Api Coord_Proofs Coord_Header Stream_Model IO_Spec IO_Samples
  Reader_Model Reader_Spec Reader_Api Reader_Open Reader_Hist Prop_Reader Iter_Proofs Rewrite_Proofs Prop_Rewrite Las2las_Summary Las2las_Points Las2las_Loop Las2las_Main Las2las_Spec Las2las_Split Cols_Model Cols_Spec Cols_Proofs
  Col_Model Col_Spec Prop_Col.
Local Open Scope Z_scope.
Local Notation length := List.length (only parsing).

Definition letters (s : string) : list ascii := list_ascii_of_string s.
(** The buffers malloc returns have the size asked for (and any contents) *)
Definition memory (junk : nat -> Z -> list Z) : Prop := forall j n, 0 <= n -> Z.of_nat (length (junk j n)) = n.

Lemma parse_ok s : s <> EmptyString -> (String.length s <= 21)%nat -> parse_entries s = Ok (map entry_of (letters s)).
Proof. intros N L. unfold parse_entries. destruct s; [contradiction|]. now rewrite (proj2 (Nat.ltb_ge _ _) L). Qed.
Lemma factor_ok F ax g z h : shows F h -> shift F ax g z -> factor (Coord_Api.offset_of ax h) (scale_of ax h) g = Ok z.
Proof.
  intros (_ & S) (q & E & -> & B). destruct (S ax) as [-> ->]. unfold factor. rewrite E. cbn [obind].
  replace (in_signedb 64 (q - g)) with true; [reflexivity|]. symmetry. unfold in_signedb, in_signed in *. lia.
Qed.
Lemma start_filled F fx fy junk h : memory junk -> h_npts h = f_npts F -> 0 <= f_npts F -> forall cs k,
  Forall2 (filled F fx fy 0) cs
    (map (fun je => junk (fst je) (Z.of_nat (entry_size (snd je)) * h_npts h)) (combine (seq k (length (map entry_of cs))) (map entry_of cs))).
Proof.
  intros M HN N0. induction cs as [|c cs IH]; intros k; [constructor|]. cbn [map List.length seq combine]. constructor; [|apply IH].
  cbn [fst snd]. rewrite HN. exists [], (junk k (Z.of_nat (entry_size (entry_of c)) * f_npts F)). split; [reflexivity|]. split; [reflexivity|]. split; [constructor|]. split.
  - specialize (M k (Z.of_nat (entry_size (entry_of c)) * f_npts F) ltac:(nia)). rewrite Nat.sub_0_r.
    apply Nat2Z.inj. rewrite M, Nat2Z.inj_mul, Z2Nat.id by exact N0. lia.
  - intros [|j] rec bytes _ X; discriminate X.
Qed.
Lemma filled_all F fx fy c b : filled F fx fy (Z.to_nat (f_npts F)) c b -> column_is F fx fy c b.
Proof.
  intros (cells & rest & -> & LC & _ & LR & CE). rewrite Nat.sub_diag in LR. destruct rest; [|discriminate LR]. rewrite app_nil_r.
  exists cells. auto.
Qed.
Lemma of_records F h : standard F -> shows_file F h -> forall rec, In rec (records_from F 0) -> of_file F h rec.
Proof.
  intros [HA HP] Sh rec I. split; [|now apply file_shows].
  destruct (proj1 (Forall_forall _ _) (proj1 (Las2las_Split.delivered_recs F h None (conj HA HP))) rec I) as [B L].
  apply (file_point F h rec HP Sh B L).
Qed.

(** For every standard file and every choice of at most 21 known letters: whatever
    was in the buffers, the column of each letter consists of the cells of the
    records, in order.  (With --skip_invalid: when there is nothing to skip.) *)
Theorem C70_columns : forall xml doy year skip gx gy s junk fuel F fx fy,
  standard F -> memory junk -> shift F AxX gx fx -> shift F AxY gy fy ->
  s <> EmptyString -> (String.length s <= 21)%nat -> Forall known_letter (letters s) -> Forall (decimals_fit F) (letters s) ->
  (skip = true -> Forall scan_angle_ok (records_from F 0)) -> (Z.to_nat (f_npts F) < fuel)%nat ->
  exists es cols, parse_entries s = Ok es /\ file_columns xml doy year skip gx gy es junk fuel F = Ok (Some cols) /\
    Forall2 (column_is F fx fy) (letters s) cols.
Proof.
  intros xml doy year skip gx gy s junk fuel F fx fy HS M SX SY NE LE K D SK FU. exists (map entry_of (letters s)).
  rewrite (parse_ok s NE LE). pose proof HS as [HA HP].
  destruct (plain_header xml doy year F HP) as (r & E & Sh & _).
  destruct (open_reads xml doy year F HA) as (r' & E' & R & _). rewrite E in E'. apply Writer_Append.Ok_inj in E'. subst r'.
  unfold file_columns. rewrite E. cbv zeta. pose proof (file_shows F _ Sh) as SH.
  pose proof (factor_ok F AxX gx fx _ SH SX) as FX. pose proof (factor_ok F AxY gy fy _ SH SY) as FY.
  unfold Coord_Api.offset_of, scale_of, axis_of in FX, FY. 
  assert (FX' : factor (x_of (h_offset (r_hdr r))) (x_of (h_scale (r_hdr r))) gx = Ok fx) by (destruct (h_offset (r_hdr r)) as [[? ?] ?], (h_scale (r_hdr r)) as [[? ?] ?]; exact FX).
  assert (FY' : factor (y_of (h_offset (r_hdr r))) (y_of (h_scale (r_hdr r))) gy = Ok fy) by (destruct (h_offset (r_hdr r)) as [[? ?] ?], (h_scale (r_hdr r)) as [[? ?] ?]; exact FY).
  rewrite FX', FY'. cbn [obind]. destruct (fields_nonneg F (proj1 (proj1 HA))) as (_ & N0 & _).
  assert (N32 : f_npts F < 2 ^ 32).
  { unfold f_npts. pose proof (Reader_Proofs.u_at_range F 107 4 (proj1 (proj1 HA))) as U. change (pow256 4) with (2 ^ 32) in U. lia. }
  destruct (read_points_ok F (r_hdr r) fx fy (letters s) skip (of_records F _ HS Sh) N32 SK K D fuel 0 _ r _ R eq_refl ltac:(lia) ltac:(lia)
    (start_filled F fx fy junk (r_hdr r) M (shows_npts F _ Sh) (proj1 N0) (letters s) 0)) as (bufs & EB & FL).
  change (Z.of_nat 0) with 0 in EB. rewrite EB. cbn [obind]. exists bufs. split; [reflexivity|]. split; [reflexivity|].
  clear - FL. induction FL as [|c b cs bufs B FL IH]; constructor; [now apply filled_all|exact IH].
Qed.

(** Two points have the same Morton code exactly when the low 31 bits of their
    shifted raw coordinates agree. *)
Theorem C70_morton_distinguishes : forall x y x' y' code, interleaved x y code ->
  (interleaved x' y' code <-> x mod 2 ^ 31 = x' mod 2 ^ 31 /\ y mod 2 ^ 31 = y' mod 2 ^ 31).
Proof.
  intros x y x' y' code [R B]. split.
  - intros [_ B']. split; apply Z.bits_inj'; intros i Hi; (destruct (Z.lt_ge_cases i 31) as [L|G]; [rewrite !Z.mod_pow2_bits_low by lia|now rewrite !Z.mod_pow2_bits_high by lia]).
    + now rewrite <- (proj2 (B i (conj Hi L))), <- (proj2 (B' i (conj Hi L))).
    + now rewrite <- (proj1 (B i (conj Hi L))), <- (proj1 (B' i (conj Hi L))).
  - intros [X Y]. split; [exact R|]. intros i Hi. destruct (B i Hi) as [B1 B2].
    rewrite B1, B2. rewrite <- (Z.mod_pow2_bits_low y 31 i), <- (Z.mod_pow2_bits_low x 31 i), X, Y by lia.
    split; apply Z.mod_pow2_bits_low; lia.
Qed.

(** *** Decimal letters *)
Section Decimals.
Local Open Scope R_scope.
Lemma trunc_err x : Rabs (IZR (Ztrunc x) - x) < 1.
Proof.
  destruct (Rle_lt_dec 0 x) as [P|N].
  - rewrite Ztrunc_floor by exact P. pose proof (Zfloor_lb x). pose proof (Zfloor_ub x). apply Rabs_def1; lra.
  - rewrite Ztrunc_ceil by lra. pose proof (Zceil_ub x). pose proof (Zceil_lb x). apply Rabs_def1; lra.
Qed.
(** Raw value [n] under scale [s] and offset [o] comes out within 1 (and a little)
    of n + o/s, the coordinate in units of the scale. *)
Theorem C70_decimal_close : forall s o n, scale_ok s -> f64_fin o = true -> Rabs (f64_R o) <= 2147483648 * Rabs (f64_R s) ->
  (Rabs (IZR n) <= 2147483648) -> Rabs (IZR n + f64_R o / f64_R s) <= 2147483646 ->
  exists X, f64_to_int32 (f64_div (f64_add (f64_mul (f64_of_Z n) s) o) s) = Ok X /\ Rabs (IZR X - (IZR n + f64_R o / f64_R s)) < 1 + / 262144.
Proof.
  intros s o n Hs Fo HO Hn HB. pose proof Hs as (Fs & S1 & S2).
  assert (S0 : 0 < Rabs (f64_R s)) by (apply Rlt_le_trans with (2 := S1); apply bpow_gt_0).
  assert (Ns : f64_R s <> 0) by (intros X; rewrite X, Rabs_R0 in S0; lra).
  assert (OO : offset_ok o).
  { split; [exact Fo|]. apply Rle_trans with (1 := HO). 
    pose proof (pow_mul 31 (Rabs (f64_R s)) 900 950 ltac:(lia) ltac:(lra) S2 ltac:(lia)) as P. exact P. }
  destruct (descale_err s o n Hs OO Hn) as (Fv & Ev). change (descale s o n) with (f64_add (f64_mul (f64_of_Z n) s) o) in *.
  set (v := f64_add (f64_mul (f64_of_Z n) s) o) in *. clearbody v.
  set (t := IZR n + f64_R o / f64_R s) in *.
  assert (Vt : Rabs (f64_R v / f64_R s - t) <= / 1048576 + / 4194304).
  { replace (f64_R v / f64_R s - t) with ((f64_R v - (IZR n * f64_R s + f64_R o)) / f64_R s) by (unfold t; field; exact Ns).
    unfold Rdiv. rewrite Rabs_mult, Rabs_inv. apply Rmult_le_reg_r with (Rabs (f64_R s)); [exact S0|]. rewrite Rmult_assoc, Rinv_l by lra.
    rewrite Rmult_1_r. apply Rle_trans with (1 := Ev). unfold u64. lra. }
  set (q := f64_R v / f64_R s) in *. apply rabs in Vt, HB.
  assert (Bq : Rabs q <= 2147483647) by (apply Rabs_le; lra).
  destruct (div_ok v s Fv Ns) as (Fq & Rq).
  { fold q. apply Rle_trans with (1 := Bq). apply Rle_trans with (bpow radix2 31); [change (bpow radix2 31) with 2147483648; lra|apply bpow_le; lia]. }
  fold q in Rq. destruct (rnd64_err q) as (e & h & He & Hh & E). rewrite E in Rq.
  pose proof (err_mul q e _ u64 Bq He) as M. unfold u64 in M. apply rabs in Hh. pose proof eta_small as ES.
  assert (TE : IZR (Btrunc 53 1024 (f64_div v s)) = IZR (Ztrunc (f64_R (f64_div v s)))).
  { rewrite (Btrunc_correct 53 1024 prec53_lt_emax). fold (f64_R (f64_div v s)). now rewrite round_FIX0. }
  pose proof (trunc_err (f64_R (f64_div v s))) as T. rewrite <- TE in T. apply Rabs_def2 in T. rewrite Rq in T.
  exists (Btrunc 53 1024 (f64_div v s)). split; [|apply Rabs_def1; lra].
  unfold f64_to_int32, f64_to_int. change (is_finite 53 1024 (f64_div v s)) with (f64_fin (f64_div v s)). rewrite Fq. cbn [andb].
  replace (in_signedb 32 (Btrunc 53 1024 (f64_div v s))) with true; [reflexivity|]. symmetry. set (X := Btrunc 53 1024 (f64_div v s)) in *. clearbody X.
  assert (XB : (-2147483648 < X < 2147483648)%Z) by (split; apply lt_IZR; lra).
  unfold in_signedb. change (2 ^ (32 - 1))%Z with 2147483648%Z. lia.
Qed.
End Decimals.

(** ... but not always at the raw value: 29 times 0.01 divided by 0.01 gives 28. *)
Definition hundredth : f64 := f64_of_bits 0x3F847AE147AE147B.
Definition hundredths : list Z :=
  let f := raw_file 2 227 0 0 20 1 ([29; 0; 0; 0] ++ repeat 0 16) in
  let s := [0x7B; 0x14; 0xAE; 0x47; 0xE1; 0x7A; 0x84; 0x3F] in firstn 131 f ++ s ++ s ++ s ++ skipn 155 f.
Theorem C70_decimal_refuted : forall xml doy year b, standard hundredths /\ file_scale hundredths AxX = hundredth /\ file_offset hundredths AxX = f64_zero /\
  map (raw_value ARawX) (records_from hundredths 0) = [29] /\
  file_columns xml doy year false 0 0 [E_X] (fun _ n => repeat b (Z.to_nat n)) 5 hundredths = Ok (Some [le_enc 4 28]).
Proof.
  intros. split; [|split; [|split; [|split]]].
  - split; [split; [apply las_fileb_ok; vm_compute; reflexivity|]; split; [apply no_schema_vlrb; vm_compute; reflexivity|];
           split; [repeat apply Forall_cons; try apply Forall_nil; vm_compute; reflexivity|];
           split; [vm_compute; reflexivity|intros _; vm_compute; discriminate]
          |split; [apply las_fileb_ok; vm_compute; reflexivity|]; split; [apply no_schema_vlrb; vm_compute; reflexivity|];
           split; [vm_compute; reflexivity|]; split; [vm_compute; apply Forall_nil|];
           split; [vm_compute; discriminate|split; vm_compute; reflexivity]].
  - unfold file_scale, hundredth. f_equal. 
  - unfold file_offset, f64_zero. apply B2FF_inj. vm_compute. reflexivity.
  - vm_compute. reflexivity.
  - vm_compute. reflexivity.
Qed.

(** *** --skip_invalid *)
Lemma opened_at xml doy year F : standard F -> exists r, reader_open xml doy year F = Ok r /\ shows_file F (r_hdr r) /\ Iter_Proofs.reads (F, 0, r_data r) r.
Proof.
  intros [HA HP]. destruct (plain_header xml doy year F HP) as (r & E & Sh & _).
  destruct (open_reads xml doy year F HA) as (r' & E' & R & _). rewrite E in E'. apply Writer_Append.Ok_inj in E'. subst r'.
  exists r. split; [exact E|]. split; [exact Sh|]. unfold Iter_Spec.opened in R. destruct R as (A & B & C). cbn [fst snd] in *. split; [exact A|]. split; [exact B|reflexivity].
Qed.
Lemma next_point F i d r : Iter_Proofs.reads (F, i, d) r -> 0 <= i < f_npts F ->
  exists r1, reader_next no_filter no_transform r tt = ((r1, tt), Ok true) /\ r_point r1 = mkPoint (file_record F i) (r_hdr r) /\ r_hdr r1 = r_hdr r /\ Iter_Proofs.reads (F, i + 1, file_record F i) r1.
Proof.
  intros R H. destruct (next_reads F i d r R) as (r1 & E & R1 & RH). replace (i <? f_npts F) with true in * by lia.
  exists r1. split; [exact E|]. split; [|split; [exact RH|exact R1]]. unfold r_point. rewrite RH. f_equal. apply R1.
Qed.
Lemma in_records F i : 0 <= i < f_npts F -> In (file_record F i) (records_from F 0).
Proof.
  intros H. unfold records_from. apply in_map_iff. exists (Z.to_nat i). split; [f_equal; lia|]. apply in_seq. lia.
Qed.
Lemma factors F h gx gy fx fy : shows_file F h -> shift F AxX gx fx -> shift F AxY gy fy ->
  factor (x_of (h_offset h)) (x_of (h_scale h)) gx = Ok fx /\ factor (y_of (h_offset h)) (y_of (h_scale h)) gy = Ok fy.
Proof.
  intros Sh SX SY. pose proof (file_shows F h Sh) as SH. pose proof (factor_ok F AxX gx fx _ SH SX) as FX. pose proof (factor_ok F AxY gy fy _ SH SY) as FY.
  unfold Coord_Api.offset_of, scale_of, axis_of in FX, FY. destruct (h_offset h) as [[? ?] ?], (h_scale h) as [[? ?] ?]. auto.
Qed.
Lemma put_cell_far buf i c : Z.of_nat (length buf) < i * Z.of_nat (length c) + Z.of_nat (length c) -> put_cell buf i c = UB UBOutOfBounds.
Proof. intros H. unfold put_cell. now replace (_ <=? _) with false by lia. Qed.

(** With a first point to skip and a valid second one, the second is stored at
    place -1 of the buffers: out of bounds, for every file and every letters. *)
Theorem C70_skip_first_refuted : forall xml doy year gx gy c s junk fuel F fx fy,
  standard F -> memory junk -> shift F AxX gx fx -> shift F AxY gy fy -> known_letter c -> decimals_fit F c ->
  2 <= f_npts F -> ~ scan_angle_ok (file_record F 0) -> scan_angle_ok (file_record F 1) -> (2 < fuel)%nat ->
  file_columns xml doy year true gx gy (map entry_of (c :: letters s)) junk fuel F = UB UBOutOfBounds.
Proof.
  intros xml doy year gx gy c s junk fuel F fx fy HS M SX SY K D N2 I0 V1 FU.
  destruct (opened_at xml doy year F HS) as (r & E & Sh & R). unfold file_columns. rewrite E. cbv zeta.
  destruct (factors F _ gx gy fx fy Sh SX SY) as [FX FY]. rewrite FX, FY. cbn [obind map].
  pose proof (of_records F _ HS Sh) as OF.
  destruct fuel as [|[|fuel]]; try lia.
  destruct (next_point F 0 _ r R ltac:(lia)) as (r1 & E1 & P1 & H1 & R1). destruct (next_point F 1 _ r1 R1 ltac:(lia)) as (r2 & E2 & P2 & H2 & R2).
  cbn [read_points]. rewrite E1. rewrite P1, (valid_iff F _ _ (OF _ (in_records F 0 ltac:(lia)))). cbn [obind].
  replace ((-90 <=? raw_value AScanAngleRank (file_record F 0)) && (raw_value AScanAngleRank (file_record F 0) <=? 90)) with false by (unfold scan_angle_ok in I0; lia).
  rewrite E2. rewrite P2, H2, H1, (valid_iff F _ _ (OF _ (in_records F 1 ltac:(lia)))). cbn [obind].
  replace ((-90 <=? raw_value AScanAngleRank (file_record F 1)) && (raw_value AScanAngleRank (file_record F 1) <=? 90)) with true by (unfold scan_angle_ok in V1; lia).
  cbn [put_row List.length map seq combine fst snd].
  destruct (pointwise_cell F (r_hdr r) fx fy c ((0 - 1) mod 2 ^ 32) _ (OF _ (in_records F 1 ltac:(lia))) K) as (bytes & EC & _ & LB).
  { intros ax A. unfold decimals_fit in D. rewrite A in D. apply D. apply in_records. lia. }
  rewrite EC. cbn [obind]. rewrite put_cell_far; [reflexivity|].
  assert (N32 : f_npts F < 2 ^ 32).
  { unfold f_npts. pose proof (Reader_Proofs.u_at_range F 107 4 (proj1 (proj1 (proj1 HS)))) as U. change (pow256 4) with (2 ^ 32) in U. lia. }
  rewrite M by (rewrite (shows_npts F _ Sh); nia). rewrite (shows_npts F _ Sh), LB. change ((0 - 1) mod 2 ^ 32) with 4294967295. change (2 ^ 32) with 4294967296 in N32.
  assert (1 <= Z.of_nat (entry_size (entry_of c))); [|nia].
  clear - K. unfold known_letter in K. cbn [list_ascii_of_string In] in K.
  repeat match goal with K : _ \/ _ |- _ => destruct K as [K|K] end; try contradiction; subst c; cbn [entry_of entry_size]; lia.
Qed.

(** A later one makes the point before it disappear, and the last cells are what
    malloc returned. *)
Definition skips : list Z := raw_file 2 227 0 0 20 3 (rec_of 7 ++ rec_of 100 ++ rec_of 9).
Definition bytes_of (b : Z) (j : nat) (n : Z) : list Z := repeat b (Z.to_nat n).
Lemma bytes_memory b : memory (bytes_of b).
Proof. intros j n H. unfold bytes_of. rewrite repeat_length. lia. Qed.
Theorem C70_skip_refuted : forall xml doy year b, file_columns xml doy year true 0 0 [E_i] (bytes_of b) 5 skips = Ok (Some [[9; 9; b; b; b; b]]).
Proof. intros. vm_compute. reflexivity. Qed.

(** *** Files with fewer points than they say: the column has what malloc returned *)
Theorem C70_short_file_refuted : forall xml doy year b, file_columns xml doy year false 0 0 [E_i] (bytes_of b) 5 cut = Ok (Some [[7; 7; 7; 7; b; b]]).
Proof. intros. vm_compute. reflexivity. Qed.

(** *** Letters that are not entries *)
Lemma unknown c : ~ known_letter c -> entry_of c = E_none.
Proof.
  unfold known_letter. cbn [list_ascii_of_string In]. intros H.
  destruct c as [[|] [|] [|] [|] [|] [|] [|] [|]]; try reflexivity; exfalso; apply H; tauto.
Qed.
Lemma known_dec c : known_letter c \/ ~ known_letter c.
Proof. unfold known_letter. destruct (in_dec ascii_dec c (list_ascii_of_string "txyzXYZainrcupedRGBMk")); auto. Qed.
Theorem C70_unknown_letter_refuted : forall xml doy year gx gy s c junk fuel F fx fy,
  standard F -> shift F AxX gx fx -> shift F AxY gy fy -> In c (letters s) -> ~ known_letter c -> 1 <= f_npts F -> (1 < fuel)%nat -> memory junk ->
  exists u, file_columns xml doy year false gx gy (map entry_of (letters s)) junk fuel F = UB u.
Proof.
  intros xml doy year gx gy s c junk fuel F fx fy HS SX SY IC NK N1 FU M.
  destruct (opened_at xml doy year F HS) as (r & E & Sh & R). unfold file_columns. rewrite E. cbv zeta.
  destruct (factors F _ gx gy fx fy Sh SX SY) as [FX FY]. rewrite FX, FY. cbn [obind].
  destruct fuel as [|fuel]; [lia|]. destruct (next_point F 0 _ r R ltac:(lia)) as (r1 & E1 & P1 & H1 & R1).
  cbn [read_points]. rewrite E1. rewrite P1, H1. cbn [obind].
  pose proof (of_records F _ HS Sh _ (in_records F 0 ltac:(lia))) as OF.
  assert (G : forall cs bufs, In c cs -> length bufs = length cs -> exists u, put_row (map entry_of cs) bufs (r_hdr r) fx fy 0 (mkPoint (file_record F 0) (r_hdr r)) = UB u).
  { induction cs as [|a cs IH]; intros bufs I L; [destruct I|]. destruct bufs as [|b bufs]; [discriminate L|]. cbn [map put_row].
    destruct (known_dec a) as [KA|NA]; [|rewrite (unknown a NA); cbn [entry_cell obind]; eauto].
    destruct I as [->|I]; [contradiction|]. cbn [List.length] in L.
    assert (X : (forall ax, decimal_letter a = Some ax -> exists n, f64_to_int32 (f64_div (coordinate F ax (file_record F 0)) (file_scale F ax)) = Ok n)
      \/ exists u, entry_cell (entry_of a) (r_hdr r) fx fy 0 (mkPoint (file_record F 0) (r_hdr r)) = UB u).
    { destruct (decimal_letter a) as [ax|] eqn:DA; [|left; discriminate].
      assert (EA : entry_cell (entry_of a) (r_hdr r) fx fy 0 (mkPoint (file_record F 0) (r_hdr r)) = decimal_cell (get_coord ax (mkPoint (file_record F 0) (r_hdr r))) (scale_of ax (r_hdr r))).
      { clear - KA DA. unfold known_letter in KA. cbn [list_ascii_of_string In] in KA.
        repeat match goal with K : _ \/ _ |- _ => destruct K as [K|K] end; try contradiction; subst a; try discriminate DA; injection DA as <-; reflexivity. }
      rewrite EA. unfold decimal_cell. rewrite (coord_is F _ _ ax OF). cbn [obind]. rewrite (proj1 (proj2 (proj2 OF) ax)).
      unfold f64_to_int32, f64_to_int. destruct (_ && _) eqn:C.
      - left. intros ax' Q. injection Q as <-. rewrite C. eauto.
      - right. cbn [obind]. eauto. }
    destruct X as [X|[u ->]]; [|cbn [obind]; eauto].
    destruct (pointwise_cell F (r_hdr r) fx fy a 0 _ OF KA X) as (bytes & -> & _ & _). cbn [obind].
    unfold put_cell. destruct (_ <=? _); cbn [obind]; [|eauto]. destruct (IH bufs I ltac:(lia)) as [u ->]. cbn [obind]. eauto. }
  destruct (G (letters s) (map (fun je => junk (fst je) (Z.of_nat (entry_size (snd je)) * h_npts (r_hdr r))) (combine (seq 0 (length (map entry_of (letters s)))) (map entry_of (letters s)))) IC) as [u ->]; [|cbn [obind]; eauto].
  rewrite map_length, combine_length, seq_length, map_length. lia.
Qed.

(** *** --moffset: no number is accepted, only numbers behind the letters lld *)
Theorem C70_moffset_refuted : forall c s, c <> "l"%char -> s64_text (String c s) = None.
Proof. intros [[|] [|] [|] [|] [|] [|] [|] [|]] s H; try reflexivity. now destruct H. Qed.

(** *** The program: with the threads of C69 *)
(** Under every schedule: when the program has ended normally, the file of letter
    number j holds the columns of the input files, each once, the same order for
    all letters. *)
Theorem C70_program : forall xml doy year skip gx gy s junk fuel Fs shifts c st es,
  let file k := nth k Fs [] in let fx k := fst (nth k shifts (0, 0)) in let fy k := snd (nth k shifts (0, 0)) in
  s <> EmptyString -> (String.length s <= 21)%nat -> Forall known_letter (letters s) ->
  (forall k, (k < length Fs)%nat -> standard (file k) /\ shift (file k) AxX gx (fx k) /\ shift (file k) AxY gy (fy k) /\ Forall (decimals_fit (file k)) (letters s) /\
     (skip = true -> Forall scan_angle_ok (records_from (file k) 0)) /\ (Z.to_nat (f_npts (file k)) < fuel)%nat /\ memory (junk k)) ->
  parse_entries s = Ok es -> sensible c -> c_files c = length Fs -> c_entries c = length (letters s) -> reachable c st -> quit st = Some 0%nat ->
  exists values order, (forall k, (k < length Fs)%nat -> exists cols, file_columns xml doy year skip gx gy es (junk k) fuel (file k) = Ok (Some cols) /\ forall j, values k j = nth j cols []) /\
    Permutation order (seq 0 (length Fs)) /\
    forall j l, nth_error (letters s) j = Some l -> column values st j = List.concat (map (fun k => values k j) order) /\
      forall k, In k order -> column_is (file k) (fx k) (fy k) l (values k j).
Proof.
  intros xml doy year skip gx gy s junk fuel Fs shifts c st es file fx fy NE LE K H PE SE CF CE R Q.
  assert (ES : es = map entry_of (letters s)) by (rewrite (parse_ok s NE LE) in PE; congruence).
  set (values := fun k j => match file_columns xml doy year skip gx gy es (junk k) fuel (file k) with Ok (Some cols) => nth j cols [] | _ => [] end).
  assert (V : forall k, (k < length Fs)%nat -> exists cols, file_columns xml doy year skip gx gy es (junk k) fuel (file k) = Ok (Some cols) /\ Forall2 (column_is (file k) (fx k) (fy k)) (letters s) cols).
  { intros k Hk. destruct (H k Hk) as (S & SX & SY & D & SK & FU & M).
    destruct (C70_columns xml doy year skip gx gy s (junk k) fuel (file k) (fx k) (fy k) S M SX SY NE LE K D SK FU) as (es' & cols & E1 & E2 & C).
    rewrite PE in E1. apply Writer_Append.Ok_inj in E1. subst es'. eauto. }
  destruct (C69_columns c st values SE R Q) as (order & P & _ & C). exists values, order. split; [|split; [now rewrite <- CF|]].
  - intros k Hk. destruct (V k Hk) as (cols & E & _). exists cols. split; [exact E|]. intros j. unfold values. now rewrite E.
  - intros j l NL. assert (J : (j < c_entries c)%nat) by (rewrite CE; apply nth_error_Some; congruence).
    split; [exact (C j J)|]. intros k IK. assert (Hk : (k < length Fs)%nat).
    { rewrite <- CF. apply (Permutation_in _ P) in IK. apply in_seq in IK. lia. }
    destruct (V k Hk) as (cols & E & F2). unfold values. rewrite E. clear - F2 NL. revert j NL.
    induction F2 as [|a b ls bs X F2 IH]; intros [|j] NL; cbn [nth_error nth] in *; try discriminate; [injection NL as <-; exact X|now apply IH].
Qed.

(** *** An instance: all letters without decimals, three points *)
Definition all_letters : string := "txyzainrcupedRGBMk".
Lemma three_standard : standard three.
Proof.
  destruct three_ok as (A & _). split; [exact A|].
  split; [apply las_fileb_ok; vm_compute; reflexivity|]; split; [apply no_schema_vlrb; vm_compute; reflexivity|];
  split; [vm_compute; reflexivity|]; split; [vm_compute; apply Forall_nil|]; split; [vm_compute; discriminate|split; vm_compute; reflexivity].
Qed.
Example C70_instance : forall xml doy year skip b, exists es cols, parse_entries all_letters = Ok es /\
  file_columns xml doy year skip 5 6 es (bytes_of b) 5 three = Ok (Some cols) /\ Forall2 (column_is three (-5) (-6)) (letters all_letters) cols.
Proof.
  intros. apply C70_columns.
  - exact three_standard.
  - apply bytes_memory.
  - exists 0. split; [vm_compute; reflexivity|]. split; [reflexivity|]. unfold in_signed. lia.
  - exists 0. split; [vm_compute; reflexivity|]. split; [reflexivity|]. unfold in_signed. lia.
  - discriminate.
  - cbn. lia.
  - unfold letters, all_letters. cbn [list_ascii_of_string]. repeat (apply Forall_cons; [unfold known_letter; cbn [list_ascii_of_string In]; tauto|]). apply Forall_nil.
  - unfold letters, all_letters. cbn [list_ascii_of_string]. repeat (apply Forall_cons; [exact I|]). apply Forall_nil.
  - intros _. change (records_from three 0) with [rec_of 7; rec_of 8; rec_of 9]. repeat (apply Forall_cons; [unfold scan_angle_ok; vm_compute; split; discriminate|]). apply Forall_nil.
  - assert (N : f_npts three = 3) by (vm_compute; reflexivity). rewrite N. change (Z.to_nat 3) with 3%nat. lia.
Qed.
(** and of a first point to skip *)
Definition skips_first : list Z := raw_file 2 227 0 0 20 2 (rec_of 100 ++ rec_of 9).
Lemma skips_first_standard : standard skips_first.
Proof.
  split; [split; [apply las_fileb_ok; vm_compute; reflexivity|]; split; [apply no_schema_vlrb; vm_compute; reflexivity|];
    split; [repeat apply Forall_cons; try apply Forall_nil; vm_compute; reflexivity|]; split; [vm_compute; reflexivity|intros _; vm_compute; discriminate]|].
  split; [apply las_fileb_ok; vm_compute; reflexivity|]; split; [apply no_schema_vlrb; vm_compute; reflexivity|];
  split; [vm_compute; reflexivity|]; split; [vm_compute; apply Forall_nil|]; split; [vm_compute; discriminate|split; vm_compute; reflexivity].
Qed.
Example C70_skip_first_instance : forall xml doy year b, file_columns xml doy year true 0 0 (map entry_of (letters "xyz")) (bytes_of b) 5 skips_first = UB UBOutOfBounds.
Proof.
  intros. change (letters "xyz") with ("x"%char :: letters "yz").
  apply (C70_skip_first_refuted xml doy year 0 0 "x"%char "yz" (bytes_of b) 5 skips_first 0 0).
  - exact skips_first_standard.
  - apply bytes_memory.
  - exists 0. split; [vm_compute; reflexivity|]. split; [reflexivity|]. unfold in_signed. lia.
  - exists 0. split; [vm_compute; reflexivity|]. split; [reflexivity|]. unfold in_signed. lia.
  - unfold known_letter. cbn [list_ascii_of_string In]. tauto.
  - exact I.
  - assert (N : f_npts skips_first = 2) by (vm_compute; reflexivity). rewrite N. lia.
  - vm_compute. intros [_ H]. apply H. reflexivity.
  - vm_compute. split; discriminate.
  - lia.
Qed.

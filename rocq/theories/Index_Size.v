(** The grid BuildIndex chooses: it always exists for proper bounds, and the
    numbers of columns and rows are between 1 and 6554. *)
From Coq Require Import ZArith Reals List Bool Lia Lra.
From Flocq Require Import Core BinarySingleNaN Binary Bits.
Import ListNotations.
From Verif Require Import Outcome Bytes Float64 Float64_Proofs Bounds_Model Bounds_Proofs Coord_Api Coord_Proofs Index_Cell Index_Temp Index_Scan Index_Out Index_Query Index_Axis Index_Build Index_Grid Index_QuerySpec.
Local Open Scope R_scope.

Lemma sqrt_ok x : f64_fin x = true -> 0 <= f64_R x -> f64_fin (f64_sqrt x) = true /\ f64_R (f64_sqrt x) = rnd64 (sqrt (f64_R x)).
Proof.
  intros F P. pose proof (Bsqrt_correct 53 1024 eq_refl eq_refl unop_nan_pl64 mode_NE x) as (C1 & C2 & _).
  split; [|exact C1]. unfold f64_fin, f64_sqrt, b64_sqrt. rewrite C2. unfold f64_fin in F. destruct x as [s|s|s pl e|s m e B]; try discriminate F; [reflexivity|].
  destruct s; [|reflexivity]. exfalso. unfold f64_R in P. cbn [B2R] in P. apply Rle_not_lt in P; apply P; apply F2R_lt_0; reflexivity.
Qed.

Lemma total_ok n : (0 <= n < 2 ^ 32)%Z -> exists t, first_total n = Ok t /\ (10 <= t <= 6554)%Z.
Proof.
  intros Hn. unfold first_total. set (q := (n / 100)%Z). assert (Hq : (0 <= q <= 42949672)%Z).
  { unfold q. split; [apply Z.div_pos; lia|]. change 42949672%Z with (4294967295 / 100)%Z. apply Z.div_le_mono; [lia|]. change (2 ^ 32)%Z with 4294967296%Z in Hn. lia. }
  clearbody q. destruct (of_Z_ok q ltac:(lia)) as (F1 & R1). assert (Q0 : 0 <= IZR q) by (apply (IZR_le 0); lia). assert (Q1 : IZR q <= 42949672) by (apply (IZR_le q 42949672); lia).
  destruct (sqrt_ok (f64_of_Z q) F1 ltac:(rewrite R1; exact Q0)) as (F2 & R2). rewrite R1 in R2.
  assert (B0 : 0 <= f64_R (f64_sqrt (f64_of_Z q))) by (rewrite R2; apply rnd_ge; [apply rnd_0|apply sqrt_pos]).
  assert (B1 : f64_R (f64_sqrt (f64_of_Z q)) <= 6554).
  { rewrite R2. apply rnd_le; [apply (rnd_int 6554); lia|]. replace 6554 with (sqrt (6554 * 6554)) by (apply sqrt_square; lra). apply sqrt_le_1; lra. }
  destruct (to_uint_floor _ F2 B0 ltac:(lra)) as (E & K). rewrite E. cbn [obind]. set (t := Zfloor _) in *.
  assert (T : (t <= 6554)%Z). { unfold t. apply le_IZR. eapply Rle_trans; [apply Zfloor_lb|exact B1]. } clearbody t.
  eexists. split; [reflexivity|]. destruct (Z.ltb_spec t 10); lia.
Qed.

(** a ratio of two ranges *)
Lemma side_ok r1 r2 t : f64_fin r1 = true -> f64_fin r2 = true -> 0 < f64_R r1 -> 0 < f64_R r2 -> (10 <= t <= 6554)%Z ->
  exists c, f64_to_uint32 (f64_mul (if f64_ge r1 r2 then f64_one else f64_div r1 r2) (f64_of_Z t)) = Ok c /\ (0 <= c <= 6554)%Z.
Proof.
  intros F1 F2 P1 P2 Ht. set (q := if f64_ge r1 r2 then f64_one else f64_div r1 r2). destruct (of_Z_ok 1 ltac:(lia)) as (O1 & O2). fold f64_one in O1, O2.
  assert (Q : f64_fin q = true /\ 0 <= f64_R q <= 1).
  { unfold q, f64_ge. destruct (fcase_le r2 r1 F2 F1) as [(E & L)|(E & L)]; rewrite E; [split; [exact O1|rewrite O2; lra]|].
    assert (B : 0 <= f64_R r1 / f64_R r2 <= 1).
    { split; [apply Rmult_le_pos; [lra|left; now apply Rinv_0_lt_compat]|]. apply Rmult_le_reg_r with (f64_R r2); [exact P2|]. replace (f64_R r1 / f64_R r2 * f64_R r2) with (f64_R r1) by (field; lra). lra. }
    destruct (div_ok r1 r2 F1 ltac:(lra)) as (D1 & D2). { rewrite Rabs_pos_eq by lra. apply Rle_trans with (bpow radix2 0); [cbn; lra|apply bpow_le; lia]. }
    split; [exact D1|]. rewrite D2. split; [apply rnd_ge; [apply rnd_0|lra]|apply rnd_le; [apply (rnd_int 1); lia|lra]]. }
  destruct Q as (Q1 & Q2). clearbody q. destruct (of_Z_ok t ltac:(lia)) as (T1 & T2). assert (TB : 10 <= IZR t <= 6554) by (split; [apply (IZR_le 10)|apply (IZR_le t 6554)]; lia).
  assert (PB : 0 <= f64_R q * IZR t <= 6554) by nra.
  destruct (mul_ok q (f64_of_Z t) Q1 T1) as (M1 & M2). { rewrite T2, Rabs_pos_eq by lra. apply Rle_trans with (bpow radix2 13); [change (bpow radix2 13) with 8192; lra|apply bpow_le; lia]. }
  rewrite T2 in M2. assert (B : 0 <= f64_R (f64_mul q (f64_of_Z t)) <= 6554). { rewrite M2. split; [apply rnd_ge; [apply rnd_0|lra]|apply rnd_le; [apply (rnd_int 6554); lia|lra]]. }
  destruct (to_uint_floor _ M1 (proj1 B) ltac:(lra)) as (E & K). rewrite E. eexists. split; [reflexivity|]. split; [lia|]. apply le_IZR. eapply Rle_trans; [apply Zfloor_lb|lra].
Qed.

Lemma scale_ok c q : (39 <= c <= 6554)%Z -> f64_fin q = true -> / 16 <= f64_R q <= 1 ->
  exists d, f64_to_uint32 (f64_mul (f64_of_Z c) q) = Ok d /\ (1 <= d <= 6554)%Z.
Proof.
  intros Hc Fq Hq. destruct (of_Z_ok c ltac:(lia)) as (T1 & T2). assert (TB : 39 <= IZR c <= 6554) by (split; [apply (IZR_le 39)|apply (IZR_le c 6554)]; lia).
  assert (PB : 1 <= IZR c * f64_R q <= 6554) by nra.
  destruct (mul_ok (f64_of_Z c) q T1 Fq) as (M1 & M2). { rewrite T2, Rabs_pos_eq by lra. apply Rle_trans with (bpow radix2 13); [change (bpow radix2 13) with 8192; lra|apply bpow_le; lia]. }
  rewrite T2 in M2. assert (B : 1 <= f64_R (f64_mul (f64_of_Z c) q) <= 6554). { rewrite M2. split; [apply rnd_ge; [apply (rnd_int 1); lia|lra]|apply rnd_le; [apply (rnd_int 6554); lia|lra]]. }
  destruct (to_uint_floor _ M1 ltac:(lra) ltac:(lra)) as (E & K). rewrite E. eexists. split; [reflexivity|]. split; [apply (Zfloor_lub 1); lra|]. apply le_IZR. eapply Rle_trans; [apply Zfloor_lb|lra].
Qed.

Lemma reduce_ok cx cy : (1 <= cx <= 6554)%Z -> (1 <= cy <= 6554)%Z -> exists dx dy, reduce_cells cx cy = Ok (dx, dy) /\ (1 <= dx <= 6554)%Z /\ (1 <= dy <= 6554)%Z.
Proof.
  intros Hx Hy. unfold reduce_cells. assert (B : (1 <= cx * cy <= 42954916)%Z) by nia. rewrite (Z.mod_small (cx * cy)) by lia.
  destruct (Z.ltb_spec 250000 (cx * cy)) as [L|L]; [|eauto].
  assert (X39 : (39 <= cx /\ 39 <= cy)%Z) by nia. set (t := (cx * cy)%Z) in *. clearbody t.
  destruct (of_Z_ok 250000 ltac:(lia)) as (N1 & N2). destruct (of_Z_ok t ltac:(lia)) as (T1 & T2).
  assert (TB : 250000 < IZR t <= 42954916) by (split; [apply (IZR_lt 250000)|apply (IZR_le t 42954916)]; lia).
  assert (QB : / 256 <= IZR 250000 / IZR t <= 1).
  { split; apply Rmult_le_reg_r with (IZR t); try lra; replace (IZR 250000 / IZR t * IZR t) with 250000 by (field; lra); lra. }
  destruct (div_ok (f64_of_Z 250000) (f64_of_Z t) N1 ltac:(rewrite T2; lra)) as (D1 & D2). { rewrite N2, T2, Rabs_pos_eq by lra. apply Rle_trans with (bpow radix2 0); [cbn; lra|apply bpow_le; lia]. }
  rewrite N2, T2 in D2.
  assert (R16 : forall e, (-1000 <= e <= 0)%Z -> rnd64 (bpow radix2 e) = bpow radix2 e).
  { intros e He. unfold rnd64. apply round_generic; [apply valid_rnd_round_mode|]. apply generic_format_bpow. unfold SpecFloat.fexp, SpecFloat.emin. lia. }
  assert (DB : / 256 <= f64_R (f64_div (f64_of_Z 250000) (f64_of_Z t)) <= 1).
  { rewrite D2. split; [|apply rnd_le; [apply (rnd_int 1); lia|lra]]. replace (/ 256) with (bpow radix2 (-8)) in * by (cbn; lra). apply rnd_ge; [apply R16; lia|lra]. }
  destruct (sqrt_ok _ D1 ltac:(lra)) as (S1 & S2). set (q := f64_sqrt (f64_div (f64_of_Z 250000) (f64_of_Z t))) in *. set (d := f64_R (f64_div (f64_of_Z 250000) (f64_of_Z t))) in *. clearbody q d.
  assert (SB : / 16 <= f64_R q <= 1).
  { rewrite S2. split.
    - replace (/ 16) with (bpow radix2 (-4)) by (cbn; lra). apply rnd_ge; [apply R16; lia|]. change (bpow radix2 (-4)) with (/ 16). replace (/ 16) with (sqrt (/ 16 * / 16)) by (apply sqrt_square; lra). apply sqrt_le_1; lra.
    - apply rnd_le; [apply (rnd_int 1); lia|]. rewrite <- sqrt_1. apply sqrt_le_1; lra. }
  destruct (scale_ok cx q ltac:(lia) S1 SB) as (dx & EX & BX). destruct (scale_ok cy q ltac:(lia) S1 SB) as (dy & EY & BY). rewrite EX. cbn [obind]. rewrite EY. cbn [obind]. eauto.
Qed.

Lemma wide_fine r n : wide r -> (1 <= n <= 1048576)%Z -> axis_fine (rg_min r) (rg_max r) n.
Proof. intros [A B C D E] H. now constructor. Qed.
Lemma wide_verify r : f64_fin (rg_min r) = true -> f64_fin (rg_max r) = true -> f64_R (rg_min r) <= f64_R (rg_max r) -> verify_range r = true.
Proof. intros A B C. unfold verify_range, f64_gt. destruct (fcase_lt (rg_max r) (rg_min r) B A) as [(E & L)|(E & L)]; [lra|]. rewrite E. reflexivity. Qed.

Theorem make_grid_ok x y z n csz : wide x -> wide y -> flat z -> (0 <= n < 2 ^ 32)%Z -> f64_gt csz f64_zero && negb (compare_distance csz f64_zero) = false ->
  exists g, make_grid x y z n csz = Ok (Some g) /\ gr_x g = x /\ gr_y g = y /\ gr_z g = z /\ gr_cz g = 1%Z /\
    gr_rx g = f64_sub (rg_max x) (rg_min x) /\ gr_ry g = f64_sub (rg_max y) (rg_min y) /\
    (1 <= gr_cx g <= 6554)%Z /\ (1 <= gr_cy g <= 6554)%Z /\
    gr_sx g = f64_div (gr_rx g) (f64_of_Z (gr_cx g)) /\ gr_sy g = f64_div (gr_ry g) (f64_of_Z (gr_cy g)).
Proof.
  intros WX WY FZ Hn Hc. pose proof (rg_ok _ _ _ (wide_fine x 1 WX ltac:(lia))) as (GX1 & GX2). pose proof (rg_ok _ _ _ (wide_fine y 1 WY ltac:(lia))) as (GY1 & GY2).
  assert (RX : 0 < f64_R (f64_sub (rg_max x) (rg_min x))) by (rewrite GX2; apply (g_r _ _ _ (wide_fine x 1 WX ltac:(lia)))).
  assert (RY : 0 < f64_R (f64_sub (rg_max y) (rg_min y))) by (rewrite GY2; apply (g_r _ _ _ (wide_fine y 1 WY ltac:(lia)))).
  pose proof (w_min _ WX) as X1. pose proof (w_max _ WX) as X2. pose proof (w_lt _ WX) as X3. pose proof (w_min _ WY) as Y1. pose proof (w_max _ WY) as Y2. pose proof (w_lt _ WY) as Y3. destruct FZ as [Z1 Z2 Z3 _].
  unfold make_grid. rewrite (wide_verify x X1 X2 ltac:(lra)), (wide_verify y Y1 Y2 ltac:(lra)), (wide_verify z Z1 Z2 ltac:(lra)). cbn [andb negb]. rewrite Hc. cbn [obind].
  destruct (fcase_le (rg_max x) (rg_min x) X2 X1) as [(E & L)|(E & _)]; [lra|]. rewrite E. destruct (fcase_le (rg_max y) (rg_min y) Y2 Y1) as [(E2 & L)|(E2 & _)]; [lra|]. rewrite E2. cbn [orb].
  destruct (total_ok n Hn) as (t & ET & BT). rewrite ET. cbn [obind].
  destruct (side_ok _ _ t GX1 GY1 RX RY BT) as (cx & EX & BX). destruct (side_ok _ _ t GY1 GX1 RY RX BT) as (cy & EY & BY). rewrite EX. cbn [obind]. rewrite EY. cbn [obind].
  assert (A1 : forall c, (0 <= c <= 6554)%Z -> (1 <= at_least_1 c <= 6554)%Z) by (intros c Hc0; unfold at_least_1; destruct (Z.ltb_spec c 1); lia).
  destruct (reduce_ok _ _ (A1 cx BX) (A1 cy BY)) as (dx & dy & ER & RB1 & RB2). rewrite ER. cbn [obind]. eexists. split; [reflexivity|]. cbn [gr_x gr_y gr_z gr_rx gr_ry gr_rz gr_sx gr_sy gr_cx gr_cy gr_cz]. repeat (split; [reflexivity|]). split; [exact RB1|]. split; [exact RB2|]. split; reflexivity.
Qed.

(** Error analysis of the positions of points and query bounds in the grid of
    the index, on one axis (index.cpp:384-438, 1312-1385). *)
From Coq Require Import ZArith Reals List Bool Lia Lra.
From Flocq Require Import Core BinarySingleNaN Binary Bits.
Import ListNotations.
From Verif Require Import Outcome Bytes Float64 Float64_Proofs Bounds_Model Bounds_Proofs Coord_Api Coord_Proofs Index_Cell Index_Float Index_Query.
Local Open Scope R_scope.

(** ** Rounding as an absolute error *)

Lemma u64_val : 0 < u64 <= / 9000000000000000.
Proof. unfold u64. lra. Qed.
Lemma eta_pos : 0 < eta64. Proof. unfold eta64. apply bpow_gt_0. Qed.
Lemma rnd_abs x B : Rabs x <= B -> Rabs (rnd64 x - x) <= u64 * B + eta64.
Proof.
  intros H. destruct (rnd64_err x) as (e & h & He & Hh & E). rewrite E.
  replace (x * (1 + e) + h - x) with (x * e + h) by ring. eapply Rle_trans; [apply Rabs_triang|].
  apply Rplus_le_compat; [|exact Hh]. rewrite Rabs_mult, Rmult_comm. pose proof (Rabs_pos x). pose proof (Rabs_pos e). apply Rmult_le_compat; lra.
Qed.
Lemma rnd_int n : (Z.abs n <= 2 ^ 53)%Z -> rnd64 (IZR n) = IZR n. Proof. apply IZR_exact. Qed.
Lemma rnd_0 : rnd64 0 = 0. Proof. apply (rnd_int 0). lia. Qed.
Lemma rnd_ge x y : rnd64 y = y -> y <= x -> y <= rnd64 x. Proof. intros E H. rewrite <- E. now apply rnd64_le. Qed.
Lemma rnd_le x y : rnd64 y = y -> x <= y -> rnd64 x <= y. Proof. intros E H. rewrite <- E. now apply rnd64_le. Qed.
Lemma rnd_f64 x : f64_fin x = true -> rnd64 (f64_R x) = f64_R x.
Proof. intros F. unfold rnd64. apply round_generic; [apply valid_rnd_round_mode|]. apply generic_format_B2R. Qed.
Lemma rnd_idem x : rnd64 (rnd64 x) = rnd64 x.
Proof. unfold rnd64. apply round_generic; [apply valid_rnd_round_mode|]. apply generic_format_round; [apply fexp_correct; reflexivity|apply valid_rnd_round_mode]. Qed.

(** ** The grid of one axis *)

Section Axis.
(** bounds [L, U] cut into [C] cells *)
Variables (L U C D r : R).
Hypothesis HD : D = U - L.
Hypothesis HR : r = rnd64 D.
Hypothesis A1 : L < U.
Hypothesis A2 : Rabs L <= bpow radix2 500.
Hypothesis A3 : Rabs U <= bpow radix2 500.
Hypothesis A4 : bpow radix2 (-500) <= D.
Hypothesis C0 : 1 <= C <= 1048576.
Notation W := (Rabs L + Rabs U).

Lemma pow_500 : bpow radix2 500 * bpow radix2 1 = bpow radix2 501. Proof. now rewrite <- bpow_plus. Qed.
Lemma D_pos : 0 < D /\ bpow radix2 (-500) <= D /\ D <= W /\ W <= bpow radix2 501.
Proof.
  split; [lra|]. split; [exact A4|]. pose proof pow_500 as P. change (bpow radix2 1) with 2 in P.
  split; [|lra]. pose proof (Rle_abs U). pose proof (Rabs_pos L). pose proof (Rle_abs (- L)) as N. rewrite Rabs_Ropp in N. lra.
Qed.
Lemma eta_D : eta64 <= D * u64 * / 10000000000 /\ eta64 <= u64 * / 10000000000.
Proof.
  destruct D_pos as (D0 & D1 & _). assert (E : eta64 <= bpow radix2 (-500) * (u64 * / 10000000000)).
  { apply Rle_trans with (bpow radix2 (-500) * bpow radix2 (-100)).
    - unfold eta64. rewrite <- bpow_plus. apply bpow_le. lia.
    - apply Rmult_le_compat_l; [apply bpow_ge_0|]. unfold u64. change (bpow radix2 (-100)) with (/ IZR (Z.pow_pos 2 100)). change (Z.pow_pos 2 100) with 1267650600228229401496703205376%Z. lra. }
  pose proof u64_val as U64. split.
  - eapply Rle_trans; [exact E|]. rewrite Rmult_assoc. apply Rmult_le_compat_r; [lra|exact D1].
  - eapply Rle_trans; [exact E|]. rewrite <- (Rmult_1_l (u64 * / 10000000000)) at 2. apply Rmult_le_compat_r; [lra|]. change 1 with (bpow radix2 0). apply bpow_le. lia.
Qed.

(** the position of [v] between the bounds, 0 to 1 *)
Definition frac (v : R) : R := (v - L) / D.
Lemma frac_in v : L <= v <= U -> 0 <= frac v <= 1.
Proof.
  intros Hv. destruct D_pos as (D0 & _). unfold frac. split; [apply Rmult_le_pos; [lra|]; left; now apply Rinv_0_lt_compat|].
  apply Rmult_le_reg_r with D; [exact D0|]. unfold Rdiv. rewrite Rmult_assoc, Rinv_l by lra. lra.
Qed.
Lemma frac_eq v : v = L + D * frac v. Proof. destruct D_pos. unfold frac. field. lra. Qed.

Lemma r_ok : r = D * (r / D) /\ Rabs (r / D - 1) <= 101 * u64 * / 100 /\ 0 < r.
Proof.
  destruct D_pos as (D0 & D1 & D2 & D3). destruct eta_D as (E1 & E2). pose proof u64_val as U64.
  assert (K : Rabs (r - D) <= u64 * D + eta64) by (rewrite ?HR; apply rnd_abs; rewrite Rabs_pos_eq; lra).
  apply Rabs_le_inv in K.
  assert (K2 : D * (1 - 101 * u64 * / 100) <= r <= D * (1 + 101 * u64 * / 100)) by (split; nra).
  split; [field; lra|]. split.
  - apply Rabs_le. split.
    + apply Rmult_le_reg_r with D; [exact D0|]. replace ((r / D - 1) * D) with (r - D) by (field; lra). nra.
    + apply Rmult_le_reg_r with D; [exact D0|]. replace ((r / D - 1) * D) with (r - D) by (field; lra). nra.
  - nra.
Qed.

(** the distance from the lower bound *)
Definition dist (v : R) : R := rnd64 (v - L).
Lemma dist_ok v : L <= v <= U -> 0 <= dist v <= r /\ Rabs (dist v / D - frac v) <= 101 * u64 * / 100.
Proof.
  intros Hv. destruct D_pos as (D0 & D1 & D2 & D3). destruct eta_D as (E1 & E2). pose proof u64_val as U64. split.
  - unfold dist. rewrite HR. split; [apply rnd_ge; [apply rnd_0|lra]|]. apply rnd64_le. lra.
  - assert (K : Rabs (dist v - (v - L)) <= u64 * D + eta64) by (rewrite ?HR; apply rnd_abs; rewrite Rabs_pos_eq; lra).
    replace (dist v / D - frac v) with ((dist v - (v - L)) / D) by (unfold frac; field; lra).
    unfold Rdiv. rewrite Rabs_mult, (Rabs_pos_eq (/ D)) by (left; now apply Rinv_0_lt_compat).
    apply Rmult_le_reg_r with D; [exact D0|]. rewrite Rmult_assoc, Rinv_l by lra. nra.
Qed.

(** dividing an approximation by an approximation of 1 *)
Lemma div_approx A B a x y : 0 <= a <= 1 -> Rabs (A - a) <= x -> Rabs (B - 1) <= y -> x <= / 10000 -> y <= / 10000 ->
  Rabs (A / B - a) <= 101 * (x + y) * / 100.
Proof.
  intros Ha Hx Hy X Y. apply Rabs_le_inv in Hx, Hy. assert (B0 : 9999 * / 10000 <= B) by lra.
  replace (A / B - a) with ((A - a - a * (B - 1)) / B) by (field; lra).
  unfold Rdiv. rewrite Rabs_mult, (Rabs_pos_eq (/ B)) by (left; apply Rinv_0_lt_compat; lra).
  assert (N : Rabs (A - a - a * (B - 1)) <= x + y) by (apply Rabs_le; split; nra).
  apply Rmult_le_reg_r with B; [lra|]. rewrite Rmult_assoc, Rinv_l by lra. assert (0 <= x + y) by (pose proof (Rabs_pos (A - a - a * (B - 1))); lra). nra.
Qed.

Lemma half_denominator p d B : - B <= p * (1 + d) <= B -> - / 1000 <= d <= / 1000 -> Rabs p <= 2 * B.
Proof.
  intros H Hd. assert (K : Rabs p * (1 + d) <= B) by (rewrite <- (Rabs_pos_eq (1 + d)) by lra; rewrite <- Rabs_mult; now apply Rabs_le).
  pose proof (Rabs_pos p). nra.
Qed.

(** the position of a query bound, in cells *)
Definition rpos (v : R) : R := rnd64 (rnd64 (C * dist v) / r).
Lemma rpos_ok v : L <= v <= U -> 0 <= rpos v /\ Rabs (rpos v - C * frac v) <= 5 * u64 * C.
Proof.
  intros Hv. destruct D_pos as (D0 & D1 & D2 & D3). destruct eta_D as (E1 & E2). pose proof u64_val as U64.
  destruct r_ok as (RD & R1 & R0). destruct (dist_ok v Hv) as ((d0 & d1) & d2). pose proof (frac_in v Hv) as F. set (t := frac v) in *. clearbody t.
  set (m := rnd64 (C * dist v)). assert (m0 : 0 <= m) by (apply rnd_ge; [apply rnd_0|nra]).
  assert (dD : dist v <= D * (102 * / 100)).
  { apply Rabs_le_inv in R1. rewrite RD in d1. nra. }
  assert (M : Rabs (m - C * dist v) <= u64 * (C * dist v) + eta64) by (apply rnd_abs; rewrite Rabs_pos_eq; nra).
  assert (M2 : Rabs (m / (C * D) - t) <= 21 * u64 * / 10).
  { replace (m / (C * D) - t) with ((m - C * dist v) / (C * D) + (dist v / D - t)) by (field; nra).
    eapply Rle_trans; [apply Rabs_triang|].
    assert (Rabs ((m - C * dist v) / (C * D)) <= 103 * u64 * / 100); [|lra].
    assert (CD : 0 < C * D) by nra. unfold Rdiv. rewrite Rabs_mult, (Rabs_pos_eq (/ (C * D))) by (left; now apply Rinv_0_lt_compat).
    apply Rmult_le_reg_r with (C * D); [exact CD|]. rewrite Rmult_assoc, Rinv_l by lra. rewrite Rmult_1_r. eapply Rle_trans; [exact M|].
    assert (u64 * (C * dist v) <= u64 * (C * (D * (102 * / 100)))) by (apply Rmult_le_compat_l; [lra|]; apply Rmult_le_compat_l; lra).
    assert (X0 : 0 <= D * u64) by (apply Rmult_le_pos; lra). assert (D * u64 <= C * (D * u64)) by nra.
    replace (u64 * (C * (D * (102 * / 100)))) with (C * (D * u64) * 102 * / 100) in * by ring. replace (103 * u64 * / 100 * (C * D)) with (C * (D * u64) * 103 * / 100) by ring. lra. }
  assert (Q : Rabs (m / (C * D) / (r / D) - t) <= 101 * (21 * u64 * / 10 + 101 * u64 * / 100) * / 100) by (apply div_approx; [exact F|exact M2|exact R1|lra|lra]).
  replace (m / (C * D) / (r / D)) with (m / r / C) in Q by (field; repeat split; lra).
  set (q := m / r) in *. assert (q0 : 0 <= q) by (apply Rmult_le_pos; [exact m0|left; now apply Rinv_0_lt_compat]).
  change (rpos v) with (rnd64 q). split; [apply rnd_ge; [apply rnd_0|exact q0]|].
  assert (QC : Rabs (q - C * t) <= 315 * u64 * C * / 100).
  { replace (q - C * t) with (C * (q / C - t)) by (field; lra). rewrite Rabs_mult, (Rabs_pos_eq C) by lra. nra. }
  assert (qB : Rabs q <= C * (1 + 4 * u64)) by (rewrite Rabs_pos_eq by exact q0; apply Rabs_le_inv in QC; nra).
  pose proof (rnd_abs q _ qB) as K. apply Rabs_le_inv in K, QC. apply Rabs_le.
  assert (u64 * (C * (1 + 4 * u64)) <= 101 * u64 * C * / 100) by nra. assert (u64 <= u64 * C) by nra. lra.
Qed.

(** the position of a point, in cells, if it is below the upper bound *)
Definition ratio (v : R) : R := rnd64 (dist v / r).
Lemma ratio_ok v : L <= v <= U -> 0 <= ratio v <= 1 /\ Rabs (ratio v - frac v) <= 32 * u64 * / 10.
Proof.
  intros Hv. destruct D_pos as (D0 & D1 & D2 & D3). destruct eta_D as (E1 & E2). pose proof u64_val as U64.
  destruct r_ok as (RD & R1 & R0). destruct (dist_ok v Hv) as ((d0 & d1) & d2). pose proof (frac_in v Hv) as F. set (t := frac v) in *. clearbody t.
  assert (Q : Rabs (dist v / D / (r / D) - t) <= 101 * (101 * u64 * / 100 + 101 * u64 * / 100) * / 100) by (apply div_approx; [exact F|exact d2|exact R1|lra|lra]).
  replace (dist v / D / (r / D)) with (dist v / r) in Q by (field; repeat split; lra).
  assert (q0 : 0 <= dist v / r) by (apply Rmult_le_pos; [exact d0|left; now apply Rinv_0_lt_compat]).
  assert (q1 : dist v / r <= 1) by (apply Rmult_le_reg_r with r; [exact R0|]; unfold Rdiv; rewrite Rmult_assoc, Rinv_l by lra; lra).
  unfold ratio. set (q := dist v / r) in *. clearbody q. split.
  - split; [apply rnd_ge; [apply rnd_0|exact q0]|apply rnd_le; [apply (rnd_int 1); lia|exact q1]].
  - assert (K : Rabs (rnd64 q - q) <= u64 * 1 + eta64) by (apply rnd_abs; rewrite Rabs_pos_eq; lra).
    apply Rabs_le_inv in K, Q. apply Rabs_le. lra.
Qed.
Lemma ipos_ok v : L <= v <= U -> 0 <= rnd64 (ratio v * C) /\ Rabs (rnd64 (ratio v * C) - C * frac v) <= 5 * u64 * C.
Proof.
  intros Hv. destruct eta_D as (E1 & E2). pose proof u64_val as U64. destruct (ratio_ok v Hv) as ((o0 & o1) & o2). set (o := ratio v) in *. clearbody o.
  assert (K : Rabs (rnd64 (o * C) - o * C) <= u64 * C + eta64) by (apply rnd_abs; rewrite Rabs_pos_eq; nra). split; [apply rnd_ge; [apply rnd_0|nra]|].
  assert (E : Rabs (o * C - C * frac v) <= 32 * u64 * C * / 10).
  { replace (o * C - C * frac v) with (C * (o - frac v)) by ring. rewrite Rabs_mult, (Rabs_pos_eq C) by lra. nra. }
  assert (u64 <= u64 * C) by nra. apply Rabs_le_inv in K, E. apply Rabs_le. lra.
Qed.

(** ** Halves of a cell *)

Definition kappa : R := u64 * W * C / D.
Lemma kappa_ok : u64 * C <= kappa /\ u64 <= kappa /\ u64 * W = kappa * (D / C) /\ 0 < kappa /\ kappa <= bpow radix2 970.
Proof.
  destruct D_pos as (D0 & D1 & D2 & D3). pose proof u64_val as U64.
  assert (E : u64 * W = kappa * (D / C)) by (unfold kappa; field; lra).
  assert (K : u64 * C <= kappa).
  { unfold kappa. apply Rmult_le_reg_r with D; [exact D0|]. replace (u64 * W * C / D * D) with (u64 * C * W) by (field; lra). apply Rmult_le_compat_l; nra. }
  assert (u64 <= u64 * C) by nra. split; [exact K|]. split; [lra|]. split; [exact E|]. split; [lra|].
  unfold kappa. apply Rmult_le_reg_r with D; [exact D0|]. replace (u64 * W * C / D * D) with (u64 * C * W) by (field; lra).
  apply Rle_trans with (bpow radix2 (-33) * bpow radix2 501).
  - apply Rmult_le_compat; [nra|lra| |exact D3]. change (bpow radix2 (-33)) with (/ IZR (Z.pow_pos 2 33)). change (Z.pow_pos 2 33) with 8589934592%Z.
    assert (u64 * C <= u64 * 1048576) by nra. unfold u64 in *. lra.
  - rewrite <- bpow_plus. apply Rle_trans with (bpow radix2 970 * bpow radix2 (-500)); [rewrite <- bpow_plus; apply bpow_le; lia|]. apply Rmult_le_compat_l; [apply bpow_ge_0|exact D1].
Qed.

Definition csize : R := rnd64 (r / C).
Lemma csize_ok : csize = D / C * (csize * C / D) /\ Rabs (csize * C / D - 1) <= 22 * u64 * / 10 /\ 0 < csize /\ csize <= D * (102 * / 100).
Proof.
  destruct D_pos as (D0 & D1 & D2 & D3). destruct eta_D as (E1 & E2). pose proof u64_val as U64. destruct r_ok as (RD & R1 & R0).
  assert (rB : r <= D * (1 + 101 * u64 * / 100) /\ D * (1 - 101 * u64 * / 100) <= r) by (apply Rabs_le_inv in R1; rewrite RD; split; nra).
  assert (q0 : 0 < r / C) by (apply Rmult_lt_0_compat; [exact R0|apply Rinv_0_lt_compat; lra]).
  assert (K : Rabs (csize - r / C) <= u64 * (r / C) + eta64) by (apply rnd_abs; rewrite Rabs_pos_eq; lra).
  assert (E3 : eta64 <= D / C * u64 * / 1000).
  { apply Rmult_le_reg_r with C; [lra|]. replace (D / C * u64 * / 1000 * C) with (D * u64 * / 1000) by (field; lra). assert (0 <= D * u64) by nra. nra. }
  apply Rabs_le_inv in K. assert (Q : r / C = D / C * (r / D)) by (field; lra). apply Rabs_le_inv in R1. assert (G0 : 0 < D / C) by (apply Rmult_lt_0_compat; [exact D0|apply Rinv_0_lt_compat; lra]).
  set (g := D / C) in *. assert (gD : g <= D) by (unfold g; apply Rmult_le_reg_r with C; [lra|]; unfold Rdiv; rewrite Rmult_assoc, Rinv_l by lra; nra).
  assert (EG : csize * C / D = csize / g) by (unfold g; field; lra). rewrite EG. clearbody g.
  assert (CS : g * (1 - 22 * u64 * / 10) <= csize <= g * (1 + 22 * u64 * / 10)) by (rewrite Q in K; split; nra).
  split; [field; lra|]. split; [|split; [nra|nra]].
  apply Rabs_le. split; apply Rmult_le_reg_r with g; try exact G0; replace ((csize / g - 1) * g) with (csize - g) by (field; lra); nra.
Qed.

(** the lower corner of a cell *)
Definition cmin (k : R) : R := rnd64 (rnd64 (k * csize) + L).
Lemma cmin_ok k : 0 <= k <= C -> 0 <= k * csize <= 2 * W * C /\ Rabs (rnd64 (k * csize) + L) <= 4 * W /\ Rabs (cmin k - (L + k * (D / C))) <= 6 * u64 * W.
Proof.
  intros Hk. destruct D_pos as (D0 & D1 & D2 & D3). destruct eta_D as (E1 & E2). pose proof u64_val as U64. destruct csize_ok as (S1 & S2 & S3 & S4).
  assert (K1 : Rabs (k * csize - k * (D / C)) <= 22 * u64 * D * / 10).
  { rewrite S1 at 1. replace (k * (D / C * (csize * C / D)) - k * (D / C)) with (k / C * D * (csize * C / D - 1)) by (field; lra).
    assert (0 <= k / C <= 1).
    { split; [apply Rmult_le_pos; [lra|left; apply Rinv_0_lt_compat; lra]|]. apply Rmult_le_reg_r with C; [lra|]. unfold Rdiv. rewrite Rmult_assoc, Rinv_l by lra. lra. }
    rewrite Rabs_mult, (Rabs_pos_eq (k / C * D)) by nra. assert (k / C * D <= D) by nra. pose proof (Rabs_pos (csize * C / D - 1)). nra. }
  assert (KD : 0 <= k * (D / C) <= D).
  { split; [apply Rmult_le_pos; [lra|apply Rmult_le_pos; [lra|left; apply Rinv_0_lt_compat; lra]]|]. replace D with (C * (D / C)) at 2 by (field; lra).
    apply Rmult_le_compat_r; [apply Rmult_le_pos; [lra|left; apply Rinv_0_lt_compat; lra]|lra]. }
  apply Rabs_le_inv in K1. unfold cmin. set (a := k * csize) in *. set (b := k * (D / C)) in *. assert (a0 : 0 <= a) by (apply Rmult_le_pos; lra).
  assert (aB : a <= D * (101 * / 100)) by nra. clearbody a b. split; [split; [exact a0|nra]|].
  assert (K2 : Rabs (rnd64 a - a) <= u64 * (D * (101 * / 100)) + eta64) by (apply rnd_abs; rewrite Rabs_pos_eq; lra). apply Rabs_le_inv in K2.
  assert (X0 : 0 <= D * u64) by nra. assert (XW : D * u64 <= W * u64) by nra.
  assert (M1 : Rabs (rnd64 a - b) <= 33 * (D * u64) * / 10) by (apply Rabs_le; lra). apply Rabs_le_inv in M1.
  assert (LW : Rabs L <= W) by (pose proof (Rabs_pos U); lra). assert (DW : D * u64 <= D * / 1000) by nra.
  assert (M2 : Rabs (rnd64 a + L) <= W * (202 * / 100)).
  { eapply Rle_trans; [apply Rabs_triang|]. assert (Rabs (rnd64 a) <= D * (102 * / 100)) by (apply Rabs_le; lra). pose proof (Rabs_pos L). nra. }
  split; [lra|]. pose proof (rnd_abs _ _ M2) as M3. apply Rabs_le_inv in M3. apply Rabs_le. lra.
Qed.

(** how far into cell [k] a point is: 0 to 1 *)
Definition inset (k v : R) : R := rnd64 (rnd64 (v - cmin k) / csize).
Lemma inset_ok k v : 0 <= k <= C -> L <= v <= U -> k - 5 * u64 * C <= C * frac v <= k + 1 + 5 * u64 * C ->
  Rabs (v - cmin k) <= 4 * W /\ Rabs (rnd64 (v - cmin k) / csize) <= 3 + 20 * kappa /\ Rabs (inset k v - (C * frac v - k)) <= 18 * kappa.
Proof.
  intros Hk Hv Hc. destruct D_pos as (D0 & D1 & D2 & D3). destruct eta_D as (E1 & E2). pose proof u64_val as U64. destruct csize_ok as (S1 & S2 & S3 & S4).
  destruct kappa_ok as (K1 & K2 & K3 & K4 & _). destruct (cmin_ok k Hk) as (_ & _ & M). apply Rabs_le_inv in M.
  set (y := C * frac v - k) in *. set (g := D / C) in *. assert (G0 : 0 < g) by (apply Rmult_lt_0_compat; [exact D0|apply Rinv_0_lt_compat; lra]).
  assert (Y : v - (L + k * g) = y * g) by (unfold y; rewrite (frac_eq v) at 1; unfold g; field; lra).
  assert (uC : u64 * C <= / 1000) by (assert (u64 * C <= u64 * 1048576) by nra; lra).
  assert (yB : - / 100 <= y <= 101 * / 100) by (unfold y; lra). assert (gD : g <= D) by (unfold g; apply Rmult_le_reg_r with C; [lra|]; unfold Rdiv; rewrite Rmult_assoc, Rinv_l by lra; nra).
  set (w := v - cmin k) in *. assert (WB : Rabs (w - y * g) <= 6 * u64 * W) by (apply Rabs_le; unfold w; lra). apply Rabs_le_inv in WB.
  replace (6 * u64 * W) with (6 * (kappa * g)) in WB by lra. assert (KG : kappa * g <= / 1000 * W) by (rewrite <- K3; nra).
  assert (yg : - g <= y * g <= 101 * / 100 * g) by (split; nra). split; [apply Rabs_le; lra|].
  assert (wB : Rabs w <= 101 * / 100 * g + 6 * (kappa * g)) by (apply Rabs_le; nra).
  pose proof (rnd_abs _ _ wB) as N. apply Rabs_le_inv in N. assert (E3 : eta64 <= g * u64 * / 1000).
  { apply Rmult_le_reg_r with C; [lra|]. replace (g * u64 * / 1000 * C) with (D * u64 * / 1000) by (unfold g; field; lra). assert (0 <= D * u64) by nra. nra. }
  set (n := rnd64 w) in *. assert (KGp : 0 < kappa * g) by nra. assert (ug : u64 * g <= kappa * g) by nra.
  assert (UKG : u64 * (kappa * g) <= / 1000 * (kappa * g)) by nra.
  assert (NB : - (72 * / 10 * (kappa * g)) <= n - y * g <= 72 * / 10 * (kappa * g)) by (replace (u64 * (101 * / 100 * g + 6 * (kappa * g))) with (101 * / 100 * (u64 * g) + 6 * (u64 * (kappa * g))) in N by ring; lra).
  assert (ES : csize * C / D = csize / g) by (unfold g; field; lra). rewrite ES in S2. unfold inset. fold w. fold n. clearbody n w y g.
  set (e := csize / g) in *. apply Rabs_le_inv in S2. assert (S1' : csize = g * e) by (unfold e; field; lra). clearbody e.
  set (p := n / csize) in *. assert (P : p * e = n / g) by (unfold p; rewrite S1'; field; split; lra).
  assert (NG : - (72 * / 10 * kappa) <= n / g - y <= 72 * / 10 * kappa).
  { replace (n / g - y) with ((n - y * g) / g) by (field; lra). split; apply Rmult_le_reg_r with g; try exact G0; replace ((n - y * g) / g * g) with (n - y * g) by (field; lra); lra. }
  rewrite <- P in NG. set (d := e - 1) in *. assert (Ee : e = 1 + d) by (unfold d; ring). rewrite Ee in NG. clearbody d p.
  assert (dB : - (22 * u64 * / 10) <= d <= 22 * u64 * / 10) by lra. clear S1 ES S1' P.
  assert (pB : - (3 + 16 * kappa) <= p <= 3 + 16 * kappa).
  { apply Rabs_le_inv. apply Rle_trans with (2 * (101 * / 100 + 72 * / 10 * kappa)); [|lra]. apply half_denominator with d; lra. }
  assert (pd : - (67 * kappa * / 10) <= p * d <= 67 * kappa * / 10).
  { assert (Rabs (p * d) <= (3 + 16 * kappa) * (22 * u64 * / 10)) by (rewrite Rabs_mult; apply Rmult_le_compat; [apply Rabs_pos|apply Rabs_pos|apply Rabs_le; lra|apply Rabs_le; lra]).
    apply Rabs_le_inv in H. replace ((3 + 16 * kappa) * (22 * u64 * / 10)) with (66 * / 10 * u64 + 352 * / 10 * (u64 * kappa)) in H by field. assert (u64 * kappa <= / 1000000 * kappa) by (apply Rmult_le_compat_r; lra). lra. }
  split; [apply Rabs_le; lra|]. 
  assert (pB2 : Rabs p <= 3 + 16 * kappa) by (apply Rabs_le; lra). pose proof (rnd_abs _ _ pB2) as R. apply Rabs_le_inv in R.
  assert (u64 * (3 + 16 * kappa) <= 31 * / 10 * kappa) by (assert (u64 * kappa <= / 1000000 * kappa) by (apply Rmult_le_compat_r; lra); lra). apply Rabs_le. lra.
Qed.
End Axis.

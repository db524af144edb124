(** Where the points and the bounds of a query lie in the grid of the index, on
    one axis, in floating point. *)
From Coq Require Import ZArith Reals List Bool Lia Lra.
From Coq Require Import ZifyBool.
From Flocq Require Import Core BinarySingleNaN Binary Bits.
Import ListNotations.
From Verif Require Import Outcome Bytes Float64 Float64_Proofs Bounds_Model Bounds_Proofs Coord_Api Coord_Proofs
  Index_Cell Index_Float Index_Query Index_Items Index_Build Index_Axis.
Local Open Scope R_scope.

(** ** Rounding below an integer *)

Local Notation fexp64 := (SpecFloat.fexp 53 1024).
Local Instance fexp64_valid : Valid_exp fexp64. Proof. apply fexp_correct. reflexivity. Qed.
Lemma format_rnd x : rnd64 x = x -> generic_format radix2 fexp64 x.
Proof. intros E. rewrite <- E. unfold rnd64. apply generic_format_round; [exact fexp64_valid|apply valid_rnd_round_mode]. Qed.
Lemma below_one o : rnd64 o = o -> o < 1 -> o <= 1 - u64.
Proof.
  intros E H. assert (K : o <= pred radix2 fexp64 (bpow radix2 0)).
  { apply pred_ge_gt; [exact fexp64_valid|now apply format_rnd| |exact H]. apply format_rnd. apply (rnd_int 1). lia. }
  rewrite pred_bpow in K. change (fexp64 0) with (-53)%Z in K. change (bpow radix2 0) with 1 in K.
  change (bpow radix2 (-53)) with (/ IZR (Z.pow_pos 2 53)) in K. change (Z.pow_pos 2 53) with 9007199254740992%Z in K. exact K.
Qed.
Lemma below_int o (n : Z) : (1 <= n <= 1048576)%Z -> rnd64 o = o -> 0 <= o < 1 -> rnd64 (o * IZR n) < IZR n.
Proof.
  intros Hn E (O0 & O1). pose proof (below_one o E O1) as O2. pose proof u64_val as U64.
  assert (N1 : 1 <= IZR n) by (apply (IZR_le 1); lia).
  assert (FN : generic_format radix2 fexp64 (IZR n)) by (apply format_rnd, rnd_int; lia).
  assert (FH : generic_format radix2 fexp64 (/ 2)).
  { apply format_rnd. destruct f64_half_R as (HF & HR). rewrite <- HR. now apply rnd_f64. }
  set (p := pred radix2 fexp64 (IZR n)).
  assert (P1 : / 2 <= p) by (apply pred_ge_gt; auto using fexp64_valid; lra).
  assert (P2 : p < IZR n) by (apply pred_lt_id; lra).
  assert (SP : succ radix2 fexp64 p = IZR n) by (apply succ_pred; auto using fexp64_valid).
  apply Rle_lt_trans with p; [|exact P2]. unfold rnd64. apply round_N_le_midp; [exact fexp64_valid|apply generic_format_pred; auto using fexp64_valid|].
  assert (U : ulp radix2 fexp64 p <= Rabs p * bpow radix2 (1 - 53)).
  { apply (ulp_FLT_le radix2 (3 - 1024 - 53) 53). rewrite Rabs_pos_eq by lra. apply Rle_trans with (bpow radix2 (-1)); [apply bpow_le; lia|]. change (bpow radix2 (-1)) with (/ 2). exact P1. }
  rewrite Rabs_pos_eq in U by lra. rewrite succ_eq_pos in SP by lra. rewrite succ_eq_pos by lra. rewrite SP.
  change (bpow radix2 (1 - 53)) with (/ IZR (Z.pow_pos 2 52)) in U. change (Z.pow_pos 2 52) with 4503599627370496%Z in U.
  assert (V : / 4503599627370496 = 2 * u64) by (unfold u64; lra). rewrite V in U.
  assert (o * IZR n <= IZR n - u64 * IZR n) by nra. assert (p * u64 < IZR n * u64) by (apply Rmult_lt_compat_r; lra). lra.
Qed.

(** truncation *)
Lemma trunc_floor x : f64_fin x = true -> 0 <= f64_R x -> Btrunc 53 1024 x = Zfloor (f64_R x).
Proof.
  intros _ P. apply eq_IZR. rewrite (Btrunc_correct 53 1024 prec53_lt_emax). fold (f64_R x). rewrite round_FIX0. now rewrite Ztrunc_floor.
Qed.
Lemma to_uint_floor x : f64_fin x = true -> 0 <= f64_R x -> f64_R x < IZR (2 ^ 32) -> f64_to_uint32 x = Ok (Zfloor (f64_R x)) /\ (0 <= Zfloor (f64_R x) < 2 ^ 32)%Z.
Proof.
  intros F P B. assert (K : (0 <= Zfloor (f64_R x) < 2 ^ 32)%Z).
  { split; [apply (Zfloor_lub 0 (f64_R x)); exact P|]. apply lt_IZR. eapply Rle_lt_trans; [apply Zfloor_lb|exact B]. }
  split; [|exact K]. unfold f64_to_uint32, f64_to_int. unfold f64_fin in F. rewrite F, (trunc_floor x F P).
  unfold in_unsignedb. replace ((0 <=? Zfloor (f64_R x))%Z && (Zfloor (f64_R x) <? 2 ^ 32)%Z)%bool with true by lia. reflexivity.
Qed.

(** ** One axis of the grid *)

(** bounds that are neither huge nor a hair apart, and at most 2^20 cells *)
Record axis_fine (lo hi : f64) (cells : Z) : Prop := {
  af_lo : f64_fin lo = true; af_hi : f64_fin hi = true;
  af_lt : f64_R lo < f64_R hi;
  af_big : Rabs (f64_R lo) <= bpow radix2 500 /\ Rabs (f64_R hi) <= bpow radix2 500;
  af_gap : bpow radix2 (-500) <= f64_R hi - f64_R lo;
  af_cells : (1 <= cells <= 1048576)%Z }.

Section Grid.
Variables (lo hi : f64) (cells : Z).
Hypothesis HA : axis_fine lo hi cells.
Local Notation L := (f64_R lo).
Local Notation U := (f64_R hi).
Local Notation C := (IZR cells).
Local Notation D := (U - L).
Local Notation r := (rnd64 (U - L)).
Local Notation rg := (f64_sub hi lo).
Definition on_axis (v : f64) : Prop := f64_fin v = true /\ L <= f64_R v <= U.

Lemma C_ok : 1 <= C <= 1048576.
Proof. destruct HA. split; [apply (IZR_le 1)|apply (IZR_le _ 1048576)]; lia. Qed.
Local Ltac use lem := let H := fresh in pose proof lem as H; destruct HA as [? ? ? (? & ?) ? ?]; eapply H; eauto using C_ok.
Lemma g_D : 0 < D /\ bpow radix2 (-500) <= D /\ D <= Rabs L + Rabs U /\ Rabs L + Rabs U <= bpow radix2 501.
Proof. destruct HA as [? ? ? (? & ?) ? ?]. exact (D_pos L U D eq_refl af_lt0 H H0 af_gap0). Qed.
Lemma g_r : r = D * (r / D) /\ Rabs (r / D - 1) <= 101 * u64 * / 100 /\ 0 < r.
Proof. destruct HA as [? ? ? (? & ?) ? ?]. exact (r_ok L U C D r eq_refl eq_refl af_lt0 H H0 af_gap0 C_ok). Qed.
Lemma g_dist v : L <= v <= U -> 0 <= dist L v <= r /\ Rabs (dist L v / D - frac L D v) <= 101 * u64 * / 100.
Proof. destruct HA as [? ? ? (? & ?) ? ?]. exact (dist_ok L U D r eq_refl eq_refl af_lt0 H H0 af_gap0 v). Qed.
Lemma g_rpos v : L <= v <= U -> 0 <= rpos L C r v /\ Rabs (rpos L C r v - C * frac L D v) <= 5 * u64 * C.
Proof. destruct HA as [? ? ? (? & ?) ? ?]. exact (rpos_ok L U C D r eq_refl eq_refl af_lt0 H H0 af_gap0 C_ok v). Qed.
Lemma g_ratio v : L <= v <= U -> 0 <= ratio L r v <= 1 /\ Rabs (ratio L r v - frac L D v) <= 32 * u64 * / 10.
Proof. destruct HA as [? ? ? (? & ?) ? ?]. exact (ratio_ok L U C D r eq_refl eq_refl af_lt0 H H0 af_gap0 C_ok v). Qed.
Lemma g_ipos v : L <= v <= U -> 0 <= rnd64 (ratio L r v * C) /\ Rabs (rnd64 (ratio L r v * C) - C * frac L D v) <= 5 * u64 * C.
Proof. destruct HA as [? ? ? (? & ?) ? ?]. exact (ipos_ok L U C D r eq_refl eq_refl af_lt0 H H0 af_gap0 C_ok v). Qed.
Lemma g_kappa : u64 * C <= kappa L U C D /\ u64 <= kappa L U C D /\ u64 * (Rabs L + Rabs U) = kappa L U C D * (D / C) /\ 0 < kappa L U C D /\ kappa L U C D <= bpow radix2 970.
Proof. destruct HA as [? ? ? (? & ?) ? ?]. exact (kappa_ok L U C D eq_refl af_lt0 H H0 af_gap0 C_ok). Qed.
Lemma g_csize : csize C r = D / C * (csize C r * C / D) /\ Rabs (csize C r * C / D - 1) <= 22 * u64 * / 10 /\ 0 < csize C r /\ csize C r <= D * (102 * / 100).
Proof. destruct HA as [? ? ? (? & ?) ? ?]. exact (csize_ok L U C D r eq_refl eq_refl af_lt0 H H0 af_gap0 C_ok). Qed.
Lemma g_cmin k : 0 <= k <= C -> 0 <= k * csize C r <= 2 * (Rabs L + Rabs U) * C /\ Rabs (rnd64 (k * csize C r) + L) <= 4 * (Rabs L + Rabs U) /\ Rabs (cmin L C r k - (L + k * (D / C))) <= 6 * u64 * (Rabs L + Rabs U).
Proof. destruct HA as [? ? ? (? & ?) ? ?]. exact (cmin_ok L U C D r eq_refl eq_refl af_lt0 H H0 af_gap0 C_ok k). Qed.
Lemma g_inset k v : 0 <= k <= C -> L <= v <= U -> k - 5 * u64 * C <= C * frac L D v <= k + 1 + 5 * u64 * C ->
  Rabs (v - cmin L C r k) <= 4 * (Rabs L + Rabs U) /\ Rabs (rnd64 (v - cmin L C r k) / csize C r) <= 3 + 20 * kappa L U C D /\
  Rabs (inset L C r k v - (C * frac L D v - k)) <= 18 * kappa L U C D.
Proof. destruct HA as [? ? ? (? & ?) ? ?]. exact (inset_ok L U C D r eq_refl eq_refl af_lt0 H H0 af_gap0 C_ok k v). Qed.
Lemma g_frac v : L <= v <= U -> 0 <= frac L D v <= 1.
Proof. destruct HA as [? ? ? (? & ?) ? ?]. exact (frac_in L U D eq_refl af_lt0 H H0 af_gap0 v). Qed.

(** *** The floating-point operations *)
Lemma big_pow k : (k <= 1000)%Z -> bpow radix2 k <= bpow radix2 1000. Proof. intros. now apply bpow_le. Qed.
Lemma rg_ok : f64_fin rg = true /\ f64_R rg = r.
Proof.
  destruct g_D as (_ & _ & D2 & D3). destruct HA. apply sub_ok; auto. rewrite Rabs_pos_eq by lra.
  pose proof (big_pow 501 ltac:(lia)). lra.
Qed.
Lemma sub_lo v : on_axis v -> f64_fin (f64_sub v lo) = true /\ f64_R (f64_sub v lo) = dist L (f64_R v).
Proof.
  intros (F & Hv). destruct g_D as (_ & _ & D2 & D3). destruct HA. apply sub_ok; auto. rewrite Rabs_pos_eq by lra.
  pose proof (big_pow 501 ltac:(lia)). lra.
Qed.
Lemma C_f : f64_fin (f64_of_Z cells) = true /\ f64_R (f64_of_Z cells) = C.
Proof. apply of_Z_ok. destruct HA. lia. Qed.
Lemma r_small : r <= bpow radix2 502.
Proof.
  destruct g_D as (D0 & _ & D2 & D3). destruct g_r as (E & B & R0). apply Rabs_le_inv in B. pose proof u64_val.
  replace (bpow radix2 502) with (2 * bpow radix2 501) by (change 2 with (bpow radix2 1); rewrite <- bpow_plus; reflexivity).
  rewrite E. assert (r / D <= 2) by lra. assert (0 <= r / D) by lra. set (q := r / D) in *. clearbody q. nra.
Qed.
Lemma cell_pos_ok v : on_axis v -> f64_fin (cell_pos cells lo rg v) = true /\ f64_R (cell_pos cells lo rg v) = rpos L C r (f64_R v).
Proof.
  intros Hv. destruct (sub_lo v Hv) as (S1 & S2). destruct C_f as (C1 & C2). destruct rg_ok as (G1 & G2). pose proof C_ok as CO. destruct Hv as (Fv & Hv).
  destruct (g_dist _ Hv) as ((d0 & d1) & _). pose proof r_small as RS. destruct g_r as (_ & _ & R0).
  unfold cell_pos. destruct (mul_ok (f64_of_Z cells) (f64_sub v lo) C1 S1) as (M1 & M2).
  { rewrite C2, S2. rewrite Rabs_pos_eq by nra. apply Rle_trans with (bpow radix2 20 * bpow radix2 502); [|rewrite <- bpow_plus; apply bpow_le; lia].
    apply Rmult_le_compat; [lra|exact d0| |lra]. change (bpow radix2 20) with 1048576. lra. }
  rewrite C2, S2 in M2. destruct (g_rpos _ Hv) as (_ & RP). pose proof (g_frac _ Hv) as FR. pose proof u64_val as U64.
  assert (PB : rnd64 (C * dist L (f64_R v)) / r <= 4194304).
  { apply Rmult_le_reg_r with r; [exact R0|]. replace (rnd64 (C * dist L (f64_R v)) / r * r) with (rnd64 (C * dist L (f64_R v))) by (field; lra).
    pose proof (rnd_abs (C * dist L (f64_R v)) (C * r)) as K. rewrite Rabs_pos_eq in K by nra. specialize (K ltac:(nra)). apply Rabs_le_inv in K.
    destruct HA as [? ? X1 (X2 & X3) X4 ?]. destruct (eta_D L U D eq_refl X1 X2 X3 X4) as (E1 & _). assert (D <= 2 * r).
    { destruct g_r as (Er & Br & _). apply Rabs_le_inv in Br. assert (/ 2 <= r / D) by lra. destruct g_D as (D0 & _). apply Rmult_le_compat_r with (r := D) in H; [|lra]. replace (r / D * D) with r in H by (field; lra). lra. }
    assert (C * dist L (f64_R v) <= C * r) by (apply Rmult_le_compat_l; lra). assert (C * r <= 1048576 * r) by nra. assert (u64 * (C * r) <= C * r) by (assert (0 <= C * r) by nra; nra). assert (D * u64 <= D) by (destruct g_D as (D0 & _); nra). lra. }
  assert (P0 : 0 <= rnd64 (C * dist L (f64_R v)) / r).
  { apply Rmult_le_pos; [apply rnd_ge; [apply rnd_0|nra]|left; now apply Rinv_0_lt_compat]. }
  destruct (div_ok (f64_mul (f64_of_Z cells) (f64_sub v lo)) rg M1) as (Q1 & Q2).
  - rewrite G2. lra.
  - rewrite M2, G2. rewrite Rabs_pos_eq by exact P0. eapply Rle_trans; [exact PB|]. apply Rle_trans with (bpow radix2 22); [change (bpow radix2 22) with 4194304; lra|apply bpow_le; lia].
  - split; [exact Q1|]. rewrite Q2, M2, G2. reflexivity.
Qed.

(** *** The cell of a point *)
Definition near (k : Z) (v : f64) : Prop := IZR k - 5 * u64 * C <= C * frac L D (f64_R v) <= IZR k + 1 + 5 * u64 * C.
Lemma identify_ok v : on_axis v -> exists k, identify lo rg cells v = Ok (Some k) /\ (0 <= k < cells)%Z /\ near k v.
Proof.
  intros Hv. destruct (sub_lo v Hv) as (S1 & S2). destruct C_f as (C1 & C2). destruct rg_ok as (G1 & G2). pose proof C_ok as CO. destruct Hv as (Fv & Hv).
  destruct (g_dist _ Hv) as ((d0 & d1) & _). destruct g_r as (_ & _ & R0). pose proof u64_val as U64.
  destruct (div_ok (f64_sub v lo) rg S1) as (Q1 & Q2); [rewrite G2; lra| |].
  { rewrite S2, G2. rewrite Rabs_pos_eq by (apply Rmult_le_pos; [exact d0|left; now apply Rinv_0_lt_compat]).
    apply Rle_trans with (bpow radix2 0); [|apply bpow_le; lia]. change (bpow radix2 0) with 1. apply Rmult_le_reg_r with r; [exact R0|]. unfold Rdiv. rewrite Rmult_assoc, Rinv_l by lra. lra. }
  rewrite S2, G2 in Q2. change (rnd64 (dist L (f64_R v) / r)) with (ratio L r (f64_R v)) in Q2.
  destruct (g_ratio _ Hv) as ((o0 & o1) & o2). unfold identify. set (o := f64_div (f64_sub v lo) rg) in *. clearbody o. rewrite <- Q2 in o0, o1, o2.
  destruct f64_zero_R as (Z1 & Z2). destruct (of_Z_ok 1 ltac:(lia)) as (N1 & N2). fold f64_one in N1, N2. unfold f64_ge.
  replace (f64_le f64_zero o) with true by (symmetry; apply f64_le_R; auto; lra). cbn [andb].
  destruct (fcase_lt o f64_one Q1 N1) as [(-> & O)|(-> & O)]; rewrite N2 in O.
  - destruct (mul_ok o (f64_of_Z cells) Q1 C1) as (M1 & M2).
    { rewrite C2. rewrite Rabs_pos_eq by nra. apply Rle_trans with (bpow radix2 20); [change (bpow radix2 20) with 1048576; nra|apply bpow_le; lia]. }
    rewrite C2 in M2. assert (B : rnd64 (f64_R o * C) < C) by (apply below_int; [destruct HA; lia|now apply rnd_f64|lra]).
    destruct (g_ipos _ Hv) as (i0 & i1). rewrite <- Q2, <- M2 in i0, i1.
    destruct (to_uint_floor _ M1 i0) as (T & T2). { rewrite M2. change (IZR (2 ^ 32)) with 4294967296. lra. }
    rewrite T. cbn [obind]. eexists. split; [reflexivity|]. rewrite <- M2 in B. split.
    + split; [lia|]. apply lt_IZR. eapply Rle_lt_trans; [apply Zfloor_lb|exact B].
    + pose proof (Zfloor_lb (f64_R (f64_mul o (f64_of_Z cells)))). pose proof (Zfloor_ub (f64_R (f64_mul o (f64_of_Z cells)))). apply Rabs_le_inv in i1. unfold near. lra.
  - assert (E : f64_R o = 1) by lra.
    assert (CD : compare_distance o f64_one = true).
    { unfold compare_distance. destruct (sub_ok o f64_one Q1 N1) as (X1 & X2).
      { rewrite E, N2. rewrite Rminus_diag_eq, Rabs_R0 by reflexivity. apply bpow_ge_0. }
      rewrite E, N2 in X2. replace (1 - 1) with 0 in X2 by ring. rewrite rnd_0 in X2. destruct f64_epsilon_R as (EF & ER). pose proof (bpow_gt_0 radix2 (-52)) as BP.
      apply andb_true_intro. split; unfold f64_ge; apply f64_le_R; rewrite ?f64_opp_fin, ?f64_opp_R, ?X2, ?ER; auto; lra. }
    rewrite CD. assert (HC := af_cells _ _ _ HA). rewrite Z.mod_small by lia. eexists. split; [reflexivity|]. split; [lia|].
    rewrite E in o2. apply Rabs_le_inv in o2. pose proof (g_frac _ Hv) as FR. unfold near. rewrite minus_IZR. set (t := frac L D (f64_R v)) in *. clearbody t.
    assert (C * (1 - 32 * u64 * / 10) <= C * t) by (apply Rmult_le_compat_l; lra). assert (C * t <= C * 1) by (apply Rmult_le_compat_l; lra). assert (0 <= u64 * C) by (apply Rmult_le_pos; lra). lra.
Qed.

Local Notation K := (kappa L U C D).
Lemma csize_f : f64_fin (f64_div rg (f64_of_Z cells)) = true /\ f64_R (f64_div rg (f64_of_Z cells)) = csize C r.
Proof.
  destruct C_f as (C1 & C2). destruct rg_ok as (G1 & G2). pose proof C_ok as CO. destruct g_r as (_ & _ & R0). pose proof r_small as RS.
  destruct (div_ok rg (f64_of_Z cells) G1) as (Q1 & Q2); [rewrite C2; lra| |].
  - rewrite G2, C2. rewrite Rabs_pos_eq by (apply Rmult_le_pos; [lra|left; apply Rinv_0_lt_compat; lra]). apply Rle_trans with r; [|pose proof (big_pow 502 ltac:(lia)); lra].
    apply Rmult_le_reg_r with C; [lra|]. unfold Rdiv. rewrite Rmult_assoc, Rinv_l by lra. nra.
  - split; [exact Q1|]. now rewrite Q2, G2, C2.
Qed.
Lemma upper_ok k v : (0 <= k < cells)%Z -> on_axis v -> near k v ->
  (upper lo (f64_div rg (f64_of_Z cells)) k v = true -> / 2 - 18 * K <= C * frac L D (f64_R v) - IZR k) /\
  (upper lo (f64_div rg (f64_of_Z cells)) k v = false -> C * frac L D (f64_R v) - IZR k <= / 2 + 18 * K).
Proof.
  intros Hk (Fv & Hv) Hn. destruct csize_f as (S1 & S2). pose proof C_ok as CO. assert (HC := af_cells _ _ _ HA). pose proof u64_val as U64.
  assert (KR : 0 <= IZR k <= C) by (split; [apply (IZR_le 0)|apply IZR_le]; lia).
  destruct (g_cmin _ KR) as ((c0 & c1) & c2 & _). destruct (g_inset (IZR k) (f64_R v) KR Hv Hn) as (n1 & n2 & n3).
  destruct g_D as (_ & _ & D2 & D3). destruct g_csize as (_ & _ & s0 & _). destruct g_kappa as (_ & _ & _ & k0 & k1).
  destruct (of_Z_ok k ltac:(lia)) as (F1 & F2). unfold upper. set (cs := f64_div rg (f64_of_Z cells)) in *.
  assert (P504 : 4 * bpow radix2 501 <= bpow radix2 1000) by (replace (4 * bpow radix2 501) with (bpow radix2 503) by (change 4 with (bpow radix2 2); now rewrite <- bpow_plus); apply bpow_le; lia).
  destruct (mul_ok (f64_of_Z k) cs F1 S1) as (M1 & M2).
  { rewrite F2, S2, Rabs_pos_eq by lra. eapply Rle_trans; [exact c1|]. apply Rle_trans with (bpow radix2 502 * bpow radix2 20); [|rewrite <- bpow_plus; apply bpow_le; lia].
    apply Rmult_le_compat; [|lra| |change (bpow radix2 20) with 1048576; lra].
    - assert (0 <= Rabs L + Rabs U) by (pose proof (Rabs_pos L); pose proof (Rabs_pos U); lra). lra.
    - replace (bpow radix2 502) with (2 * bpow radix2 501) by (change 2 with (bpow radix2 1); now rewrite <- bpow_plus). lra. }
  rewrite F2, S2 in M2. assert (FL := af_lo _ _ _ HA).
  destruct (add_ok (f64_mul (f64_of_Z k) cs) lo M1 FL) as (A1 & A2). { rewrite M2. lra. }
  rewrite M2 in A2. change (rnd64 (rnd64 (IZR k * csize C r) + L)) with (cmin L C r (IZR k)) in A2.
  destruct (sub_ok v (f64_add (f64_mul (f64_of_Z k) cs) lo) Fv A1) as (B1 & B2). { rewrite A2. lra. }
  rewrite A2 in B2.
  destruct (div_ok (f64_sub v (f64_add (f64_mul (f64_of_Z k) cs) lo)) cs B1) as (Q1 & Q2).
  { rewrite S2. lra. }
  { rewrite B2, S2. eapply Rle_trans; [exact n2|]. apply Rle_trans with (bpow radix2 5 * bpow radix2 970); [|rewrite <- bpow_plus; apply bpow_le; lia].
    change (bpow radix2 5) with 32. assert (1 <= bpow radix2 970) by (apply (bpow_le radix2 0 970); lia). lra. }
  rewrite B2, S2 in Q2. change (rnd64 (rnd64 (f64_R v - cmin L C r (IZR k)) / csize C r)) with (inset L C r (IZR k) (f64_R v)) in Q2.
  destruct f64_half_R as (HF & HR). apply Rabs_le_inv in n3. unfold f64_gt. split; intros E.
  - apply f64_lt_R in E; auto. rewrite HR, Q2 in E. lra.
  - destruct (fcase_lt f64_half (f64_div (f64_sub v (f64_add (f64_mul (f64_of_Z k) cs) lo)) cs) HF Q1) as [(E2 & _)|(_ & E2)]; [congruence|]. rewrite HR, Q2 in E2. lra.
Qed.

(** *** The cells of a query interval *)
Definition cells_at (a a' : axis) (pa pb : R) : Prop :=
  ax_r a' = ax_r a /\ ax_off a' = ax_off a /\
  ax_lin a' = Zceil pa /\ ax_hin a' = (Zfloor pb - 1)%Z /\ ax_lb a' = Zfloor pa /\ ax_hb a' = (Zceil pb - 1)%Z /\
  f64_fin (ax_lpart a') = true /\ f64_R (ax_lpart a') = rnd64 (pa - IZR (Zfloor pa)) /\
  f64_fin (ax_hpart a') = true /\ f64_R (ax_hpart a') = rnd64 (pb - IZR (Zceil pb - 1)).
Lemma axis_cells_ok a x y : f64_fin x = true -> f64_fin y = true -> 0 <= f64_R x <= 2000000 -> 0 <= f64_R y <= 2000000 ->
  exists a', axis_cells a x y = Ok a' /\ cells_at a a' (f64_R x) (f64_R y).
Proof.
  intros Fx Fy Bx By. unfold axis_cells. destruct (of_Z_ok 1 ltac:(lia)) as (N1 & N2). fold f64_one in N1, N2.
  assert (ZB : forall z, 0 <= z <= 2000000 -> (0 <= Zfloor z <= 2000000)%Z /\ (0 <= Zceil z <= 2000000)%Z).
  { intros z Hz. assert (F1 : (0 <= Zfloor z)%Z) by (apply (Zfloor_lub 0 z); lra). assert (F2 : (Zceil z <= 2000000)%Z) by (apply (Zceil_glb 2000000 z); lra).
    assert (F3 : (Zfloor z <= Zceil z)%Z). { apply le_IZR. pose proof (Zfloor_lb z). pose proof (Zceil_ub z). lra. } lia. }
  destruct (ZB _ Bx) as (X1 & X2), (ZB _ By) as (Y1 & Y2).
  destruct (ceil_ok x Fx) as (C1 & C2), (floor_ok x Fx) as (C3 & C4), (ceil_ok y Fy) as (C5 & C6), (floor_ok y Fy) as (C7 & C8).
  assert (SI : forall z n, f64_fin z = true -> f64_R z = IZR n -> (0 <= n <= 2000000)%Z -> f64_fin (f64_sub z f64_one) = true /\ f64_R (f64_sub z f64_one) = IZR (n - 1)).
  { intros z n Fz Ez Hn. assert (0 <= IZR n <= 2000000) by (split; [apply (IZR_le 0)|apply (IZR_le _ 2000000)]; lia).
    destruct (sub_ok z f64_one Fz N1) as (S1 & S2).
    - rewrite Ez, N2. apply Rle_trans with (bpow radix2 30); [|apply bpow_le; lia]. change (bpow radix2 30) with 1073741824. apply Rabs_le. lra.
    - split; [exact S1|]. rewrite S2, Ez, N2, <- minus_IZR. apply rnd_int. lia. }
  destruct (SI _ _ C7 C8 Y1) as (S1 & S2), (SI _ _ C5 C6 Y2) as (S3 & S4).
  rewrite (to_int32_ok _ _ C1 C2), (to_int32_ok _ _ S1 S2), (to_int32_ok _ _ C3 C4), (to_int32_ok _ _ S3 S4). unfold in_signedb.
  replace ((- 2 ^ (32 - 1) <=? Zceil (f64_R x))%Z && (Zceil (f64_R x) <? 2 ^ (32 - 1))%Z)%bool with true by lia.
  replace ((- 2 ^ (32 - 1) <=? Zfloor (f64_R y) - 1)%Z && (Zfloor (f64_R y) - 1 <? 2 ^ (32 - 1))%Z)%bool with true by lia.
  replace ((- 2 ^ (32 - 1) <=? Zfloor (f64_R x))%Z && (Zfloor (f64_R x) <? 2 ^ (32 - 1))%Z)%bool with true by lia.
  replace ((- 2 ^ (32 - 1) <=? Zceil (f64_R y) - 1)%Z && (Zceil (f64_R y) - 1 <? 2 ^ (32 - 1))%Z)%bool with true by lia.
  cbn [obind]. eexists. split; [reflexivity|]. unfold cells_at. cbn [ax_r ax_off ax_lin ax_hin ax_lb ax_hb ax_lpart ax_hpart].
  assert (IB : forall z n m, (- 1 <= n <= 2000000)%Z -> 0 <= z <= m -> m <= 2000000 -> Rabs (z - IZR n) <= bpow radix2 1000).
  { intros z n m Hn Hz Hm. assert (- 1 <= IZR n <= 2000000) by (split; [apply (IZR_le (-1))|apply (IZR_le _ 2000000)]; lia).
    apply Rle_trans with (bpow radix2 30); [|apply bpow_le; lia]. change (bpow radix2 30) with 1073741824. apply Rabs_le. lra. }
  destruct (sub_ok x (f64_floor x) Fx C3) as (P1 & P2). { rewrite C4. apply (IB _ _ 2000000); try lia; lra. }
  destruct (sub_ok y (f64_sub (f64_ceil y) f64_one) Fy S3) as (P3 & P4). { rewrite S4. apply (IB _ _ 2000000); try lia; lra. }
  rewrite C4 in P2. rewrite S4 in P4. repeat split; auto.
Qed.
Lemma pos_small v : L <= v <= U -> 0 <= rpos L C r v <= 2000000.
Proof.
  intros Hv. destruct (g_rpos v Hv) as (p0 & p1). pose proof (g_frac v Hv) as FR. pose proof C_ok as CO. pose proof u64_val as U64. apply Rabs_le_inv in p1.
  assert (C * frac L D v <= C * 1) by (apply Rmult_le_compat_l; lra). assert (u64 * C <= u64 * 1048576) by (apply Rmult_le_compat_l; lra). lra.
Qed.

(** the slack: 2^-48 times the magnitude of the bounds *)
Definition slack : R := 32 * u64 * (Rabs L + Rabs U).
Lemma slack_pos : slack = 32 * K * (D / C) /\ 0 < slack.
Proof. destruct g_kappa as (_ & _ & E & k0 & _). destruct g_D as (D0 & _). pose proof C_ok. unfold slack. split; [rewrite Rmult_assoc, E; ring|].
  rewrite Rmult_assoc, E. apply Rmult_lt_0_compat; [lra|]. apply Rmult_lt_0_compat; [exact k0|]. apply Rmult_lt_0_compat; [exact D0|]. apply Rinv_0_lt_compat. lra. Qed.
Lemma pos_lt a b : a + slack <= b -> C * frac L D a + 32 * K <= C * frac L D b.
Proof.
  intros H. destruct slack_pos as (E & _). rewrite E in H. destruct g_D as (D0 & _). pose proof C_ok as CO. unfold frac.
  apply Rmult_le_reg_r with (D / C); [apply Rmult_lt_0_compat; [exact D0|apply Rinv_0_lt_compat; lra]|].
  replace (C * ((b - L) / D) * (D / C)) with (b - L) by (field; lra). replace ((C * ((a - L) / D) + 32 * K) * (D / C)) with (a - L + 32 * K * (D / C)) by (field; lra). lra.
Qed.
Lemma pos_le a b : C * frac L D a <= C * frac L D b + 32 * K -> a - slack <= b.
Proof.
  intros H. destruct slack_pos as (E & _). rewrite E. destruct g_D as (D0 & _). pose proof C_ok as CO. unfold frac in H.
  apply Rmult_le_compat_r with (r := D / C) in H; [|left; apply Rmult_lt_0_compat; [exact D0|apply Rinv_0_lt_compat; lra]].
  replace (C * ((a - L) / D) * (D / C)) with (a - L) in H by (field; lra). replace ((C * ((b - L) / D) + 32 * K) * (D / C)) with (b - L + 32 * K * (D / C)) in H by (field; lra). lra.
Qed.

Section Verdict.
Variables (a : axis) (k : Z) (v : f64) (pa pb : R).
Hypothesis H1 : on_axis (rg_min (ax_r a)).
Hypothesis H2 : on_axis (rg_max (ax_r a)).
Hypothesis PA : pa = rpos L C r (f64_R (rg_min (ax_r a))).
Hypothesis PB : pb = rpos L C r (f64_R (rg_max (ax_r a))).
Hypothesis Hk : (0 <= k < cells)%Z.
Hypothesis Hv : on_axis v.
Hypothesis Hn : near k v.
Hypothesis HC : exists a0, cells_at a0 a pa pb.
Lemma signed_k : to_signed 32 k = k. Proof. apply to_signed_small. assert (X := af_cells _ _ _ HA). lia. Qed.
Lemma pa_ok : Rabs (pa - C * frac L D (f64_R (rg_min (ax_r a)))) <= 5 * K /\ Rabs (pb - C * frac L D (f64_R (rg_max (ax_r a)))) <= 5 * K /\ 5 * u64 * C <= 5 * K.
Proof.
  destruct g_kappa as (k1 & _). destruct H1 as (_ & X1), H2 as (_ & X2). destruct (g_rpos _ X1) as (_ & Y1), (g_rpos _ X2) as (_ & Y2). rewrite <- PA in Y1. rewrite <- PB in Y2.
  split; [eapply Rle_trans; [exact Y1|lra]|]. split; [eapply Rle_trans; [exact Y2|lra]|lra].
Qed.

Lemma rpos_low : rpos L C r L = 0.
Proof. unfold rpos, dist. rewrite Rminus_diag_eq by reflexivity. rewrite rnd_0, Rmult_0_r, rnd_0. unfold Rdiv. rewrite Rmult_0_l. apply rnd_0. Qed.
(** The point is in the interval, by the slack or because the interval reaches
    the end of the axis. *)
Lemma verdict_complete : f64_R (rg_min (ax_r a)) + slack <= f64_R v \/ f64_R (rg_min (ax_r a)) = L ->
  f64_R v <= f64_R (rg_max (ax_r a)) - slack \/ f64_R (rg_max (ax_r a)) = U ->
  in_border a k = true /\ axis_accepts a k v = true /\ half_good a k (negb (upper lo (f64_div rg (f64_of_Z cells)) k v)) = true.
Proof.
  intros B1 B2. destruct HC as (a0 & _ & _ & E1 & E2 & E3 & E4 & F1 & E5 & F2 & E6). destruct pa_ok as (P1 & P2 & P3). destruct slack_pos as (_ & SP).
  destruct g_kappa as (k1 & k2 & _ & k0 & _). pose proof u64_val as U64. pose proof C_ok as CO.
  destruct (upper_ok k v Hk Hv Hn) as (UT & UF). unfold near in Hn. apply Rabs_le_inv in P1, P2.
  assert (LOW : pa < IZR k + 1 /\ (upper lo (f64_div rg (f64_of_Z cells)) k v = false -> pa - IZR k <= / 2) /\ f64_R (rg_min (ax_r a)) <= f64_R v).
  { destruct B1 as [B1|B1].
    - apply pos_lt in B1 as Q1. set (t := C * frac L D (f64_R v)) in *. set (ta := C * frac L D (f64_R (rg_min (ax_r a)))) in *. split; [lra|]. split; [|lra]. intros EU. specialize (UF EU). lra.
    - rewrite B1, rpos_low in PA. assert (0 <= IZR k) by (apply (IZR_le 0); lia). destruct Hv as (_ & Hv'). split; [lra|]. split; intros; lra. }
  assert (HIGH : IZR k < pb /\ (upper lo (f64_div rg (f64_of_Z cells)) k v = true -> / 2 + 2 * u64 <= pb - IZR k) /\ f64_R v <= f64_R (rg_max (ax_r a))).
  { destruct B2 as [B2|B2].
    - assert (B2' : f64_R v + slack <= f64_R (rg_max (ax_r a))) by lra. apply pos_lt in B2' as Q2. set (t := C * frac L D (f64_R v)) in *. set (tb := C * frac L D (f64_R (rg_max (ax_r a)))) in *.
      split; [lra|]. split; [|lra]. intros EU. specialize (UT EU). lra.
    - destruct H2 as (_ & X2). destruct (g_rpos _ X2) as (_ & Y2). rewrite <- PB in Y2. apply Rabs_le_inv in Y2. rewrite B2 in Y2.
      assert (FU : frac L D U = 1) by (unfold frac; destruct g_D as (D0 & _); field; lra). rewrite FU in Y2.
      assert (IZR k + 1 <= C) by (rewrite <- plus_IZR; apply IZR_le; lia). assert (u64 * C <= / 9000000000000000 * 1048576) by (apply Rmult_le_compat; lra).
      destruct Hv as (_ & Hv'). split; [lra|]. split; intros; lra. }
  destruct LOW as (LOW1 & LOW2 & LOW3), HIGH as (HIGH1 & HIGH2 & HIGH3).
  assert (LB : (ax_lb a <= k)%Z). { rewrite E3. apply Z.lt_succ_r, lt_IZR. unfold Z.succ. rewrite plus_IZR. pose proof (Zfloor_lb pa). lra. }
  assert (HB : (k <= ax_hb a)%Z). { rewrite E4. apply Z.lt_le_pred. apply lt_IZR. pose proof (Zceil_ub pb). lra. }
  assert (LI : (ax_lin a <= ax_lb a + 1)%Z). { rewrite E1, E3. apply Zceil_glb. rewrite plus_IZR. left. apply Zfloor_ub. }
  assert (HI : (ax_hb a - 1 <= ax_hin a)%Z). { rewrite E2, E4. assert (X : (Zceil pb - 1 <= Zfloor pb)%Z). { apply Zfloor_lub. rewrite minus_IZR. pose proof (Zceil_lb pb). lra. } lia. }
  split. { unfold in_border. rewrite signed_k. apply orb_true_intro. right. lia. }
  split.
  - unfold axis_accepts. destruct (ax_off a); [reflexivity|]. cbn [orb]. destruct ((ax_lin a <=? k)%Z && (k <=? ax_hin a)%Z)%bool eqn:EI; [reflexivity|]. cbn [orb].
    replace ((k =? ax_lb a)%Z || (k =? ax_hb a)%Z)%bool with true by lia. cbn [andb]. unfold between, f64_ge. destruct Hv as (Fv & _), H1 as (G1 & _), H2 as (G2 & _).
    apply andb_true_intro. split; apply f64_le_R; auto; lra.
  - unfold half_good. rewrite signed_k. destruct (ax_off a || ((ax_lin a <=? k)%Z && (k <=? ax_hin a)%Z))%bool eqn:EI; [reflexivity|].
    destruct f64_half_R as (XF & XR). destruct (k =? ax_lb a)%Z eqn:EK.
    + destruct (upper lo (f64_div rg (f64_of_Z cells)) k v) eqn:EU; cbn [negb]; [reflexivity|]. specialize (LOW2 eq_refl). apply f64_le_R; auto. rewrite XR, E5.
      apply rnd_le; [rewrite <- XR; now apply rnd_f64|]. rewrite <- E3. apply Z.eqb_eq in EK. rewrite <- EK. lra.
    + destruct (upper lo (f64_div rg (f64_of_Z cells)) k v) eqn:EU; cbn [negb]; [|reflexivity]. specialize (HIGH2 eq_refl). unfold f64_gt. apply f64_lt_R; auto. rewrite XR, E6.
      assert (EH : (k = ax_hb a)%Z) by lia. rewrite <- E4, <- EH.
      apply Rlt_le_trans with (/ 2 + 2 * u64); [lra|]. apply rnd_ge; [|lra].
      replace (/ 2 + 2 * u64) with (F2R (Float radix2 (2 ^ 51 + 1) (-52))).
      * unfold rnd64. apply round_generic; [apply valid_rnd_round_mode|]. apply generic_format_F2R. intros _. unfold cexp.
        rewrite mag_F2R by discriminate. change (Z.pow 2 51 + 1)%Z with 2251799813685249%Z. 
        replace (mag radix2 (IZR 2251799813685249)) with (mag radix2 (IZR 2251799813685249)) by reflexivity.
        rewrite (mag_unique radix2 (IZR 2251799813685249) 52); [cbv; discriminate|]. rewrite Rabs_pos_eq by lra. change (bpow radix2 (52 - 1)) with 2251799813685248. change (bpow radix2 52) with 4503599627370496. lra.
      * unfold F2R. cbn [Fnum Fexp]. change (Z.pow 2 51 + 1)%Z with 2251799813685249%Z. change (bpow radix2 (-52)) with (/ IZR (Z.pow_pos 2 52)). change (Z.pow_pos 2 52) with 4503599627370496%Z. unfold u64. lra.
Qed.

Lemma verdict_sound : ax_off a = false -> axis_accepts a k v = true ->
  f64_R (rg_min (ax_r a)) - slack <= f64_R v <= f64_R (rg_max (ax_r a)) + slack.
Proof.
  intros HO HA1. destruct HC as (a0 & _ & _ & E1 & E2 & E3 & E4 & _). destruct pa_ok as (P1 & P2 & P3). destruct slack_pos as (_ & SP).
  destruct g_kappa as (k1 & k2 & _ & k0 & _). pose proof u64_val as U64. unfold near in Hn. apply Rabs_le_inv in P1, P2.
  unfold axis_accepts in HA1. rewrite HO in HA1. cbn [orb] in HA1. apply orb_prop in HA1. destruct HA1 as [I|I].
  - apply andb_prop in I. destruct I as (I1 & I2). apply Z.leb_le in I1, I2. rewrite E1 in I1. rewrite E2 in I2.
    assert (J1 : pa <= IZR k). { pose proof (Zceil_ub pa). apply IZR_le in I1. lra. }
    assert (J2 : IZR k + 1 <= pb). { assert (I3 : (k + 1 <= Zfloor pb)%Z) by lia. apply IZR_le in I3. rewrite plus_IZR in I3. pose proof (Zfloor_lb pb). lra. }
    split; [apply pos_le; lra|]. assert (f64_R v - slack <= f64_R (rg_max (ax_r a))) by (apply pos_le; lra). lra.
  - apply andb_prop in I. destruct I as (_ & I). unfold between, f64_ge in I. apply andb_prop in I. destruct I as (I1 & I2). destruct Hv as (Fv & _), H1 as (G1 & _), H2 as (G2 & _).
    apply f64_le_R in I1; auto. apply f64_le_R in I2; auto. lra.
Qed.
End Verdict.
End Grid.

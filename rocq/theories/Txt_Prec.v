(** The precision las2txt takes from a scale, and what it means for coordinates. *)
From Coq Require Import ZArith List Bool Lia Lra String Ascii Reals.
Import ListNotations.
From Flocq Require Import Core BinarySingleNaN Binary Bits.
From Verif Require Import Outcome Bytes Float64 Float64_Proofs Point_Model Point_Spec Coord_Api Bounds_Proofs Coord_Proofs Text_Model Text_Proofs Index_Float Cols_Spec Txt_Model Txt_Spec.
Local Open Scope R_scope.

Definition log10 (x : R) : R := ln x / ln 10.
Lemma ln10_pos : 1 < ln 10.
Proof. rewrite <- (ln_exp 1). apply ln_increasing; [apply exp_pos|]. pose proof exp_le_3. lra. Qed.
Lemma log10_pow p : log10 (/ 10 ^ p) = - INR p.
Proof.
  pose proof ln10_pos. unfold log10. rewrite ln_Rinv by (apply pow_lt; lra).
  assert (L : ln (10 ^ p) = INR p * ln 10).
  { induction p as [|p IH]; [cbn; rewrite ln_1; ring|]. rewrite S_INR. cbn [pow]. rewrite ln_mult; [rewrite IH; ring|lra|apply pow_lt; lra]. }
  rewrite L. field. lra.
Qed.
Lemma ln_1_plus e : -1 < e -> ln (1 + e) <= e.
Proof. intros H. rewrite <- (ln_exp e) at 2. destruct (Req_dec e 0) as [->|N]; [rewrite Rplus_0_r, exp_0; lra|]. left. apply ln_increasing; [lra|]. now apply exp_ineq1. Qed.
Lemma log10_close x v : 0 < v -> Rabs (x - v) <= / 2 ^ 52 * v -> Rabs (log10 x - log10 v) <= / 2 ^ 51.
Proof.
  intros V H. pose proof ln10_pos as L10. set (d := (x - v) / v).
  assert (D : Rabs d <= / 2 ^ 52).
  { unfold d, Rdiv. rewrite Rabs_mult, (Rabs_pos_eq (/ v)) by (left; now apply Rinv_0_lt_compat). apply Rmult_le_reg_r with v; [exact V|]. rewrite Rmult_assoc, Rinv_l by lra. lra. }
  apply rabs in D. assert (E52 : / 2 ^ 52 = / 4503599627370496) by (f_equal; lra). assert (E51 : / 2 ^ 51 = 2 * / 4503599627370496) by (assert (2 ^ 51 = 2251799813685248) as -> by lra; lra).
  rewrite E52 in D. rewrite E51.
  assert (X : x = v * (1 + d)) by (unfold d; field; lra).
  assert (P : ln x = ln v + ln (1 + d)) by (rewrite X; apply ln_mult; lra).
  pose proof (ln_1_plus d ltac:(lra)) as U.
  assert (Lo : - (d / (1 + d)) * -1 <= ln (1 + d)).
  { assert (Q : ln (1 + d) = - ln (/ (1 + d))) by (rewrite ln_Rinv by lra; ring). rewrite Q.
    replace (/ (1 + d)) with (1 + - (d / (1 + d))) by (field; lra).
    assert (- (d / (1 + d)) > -1). { unfold Rdiv. assert (I : 0 < / (1 + d)) by (apply Rinv_0_lt_compat; lra). assert (- (d * / (1 + d)) = -1 + / (1 + d)) by (field; lra). lra. }
    pose proof (ln_1_plus (- (d / (1 + d))) ltac:(lra)). lra. }
  assert (B : - (2 * / 4503599627370496) <= d / (1 + d)).
  { apply Rmult_le_reg_r with (1 + d); [lra|]. unfold Rdiv. rewrite Rmult_assoc, Rinv_l by lra. nra. }
  unfold log10. rewrite P. replace ((ln v + ln (1 + d)) / ln 10 - ln v / ln 10) with (ln (1 + d) * / ln 10) by (field; lra).
  assert (I1 : 0 < / ln 10 < 1) by (split; [apply Rinv_0_lt_compat; lra|rewrite <- Rinv_1; apply Rinv_lt_contravar; lra]).
  apply Rabs_le. split; nra.
Qed.

(** the fractional part *)
Lemma trunc_f64 x : f64_fin x = true -> f64_fin (f64_trunc x) = true /\ f64_R (f64_trunc x) = IZR (Ztrunc (f64_R x)).
Proof.
  intros F. destruct (Bnearbyint_correct 53 1024 prec53_lt_emax unop_nan_pl64 mode_ZR x) as (N1 & N2 & _).
  split; [unfold f64_fin, f64_trunc; rewrite N2; exact F|]. unfold f64_R, f64_trunc. rewrite N1, round_FIX0. reflexivity.
Qed.
Lemma rnd64_self x : f64_fin x = true -> rnd64 (f64_R x) = f64_R x.
Proof. intros F. unfold rnd64. apply round_generic; [typeclasses eauto|]. apply generic_format_B2R. Qed.
Lemma frac_small x : f64_fin x = true -> 0 <= f64_R x < 1 -> let f := f64_sub x (f64_trunc x) in f64_fin f = true /\ f64_R f = f64_R x.
Proof.
  intros F B. cbv zeta. destruct (trunc_f64 x F) as (T1 & T2). 
  assert (Z0 : Ztrunc (f64_R x) = 0%Z). { rewrite Ztrunc_floor by lra. apply Zfloor_imp. cbn. lra. }
  rewrite Z0 in T2. destruct (sub_ok x (f64_trunc x) F T1) as (S1 & S2).
  { rewrite T2, Rminus_0_r, Rabs_pos_eq by lra. apply Rle_trans with (bpow radix2 0); [cbn; lra|apply bpow_le; lia]. }
  split; [exact S1|]. rewrite S2, T2, Rminus_0_r. now apply rnd64_self.
Qed.
Lemma abs_f64 x : f64_fin x = true -> f64_fin (f64_abs x) = true /\ f64_R (f64_abs x) = Rabs (f64_R x).
Proof. intros F. split; [unfold f64_fin, f64_abs, b64_abs; rewrite is_finite_Babs; exact F|]. unfold f64_R, f64_abs, b64_abs. apply B2R_Babs. Qed.

Lemma fin_log_range x : f64_fin x = true -> 0 < f64_R x -> -400 <= log10 (f64_R x) <= 400.
Proof.
  intros F P. pose proof ln10_pos as L10.
  assert (L2 : 0 < ln 2 <= 1).
  { split; [rewrite <- ln_1; apply ln_increasing; lra|]. rewrite <- (ln_exp 1). destruct (Rle_lt_dec 2 (exp 1)) as [L|G].
    - destruct L as [L|L]; [left; apply ln_increasing; lra|rewrite <- L; lra].
    - pose proof (exp_ineq1 1 ltac:(lra)). lra. }
  assert (LB : forall e, ln (bpow radix2 e) = IZR e * ln 2).
  { intros e. rewrite bpow_powerRZ. change (IZR (radix_val radix2)) with 2. rewrite powerRZ_Rpower by lra. unfold Rpower. now rewrite ln_exp. }
  assert (L10' : 3 * ln 2 < ln 10).
  { replace (3 * ln 2) with (ln (2 * 2 * 2)) by (rewrite !ln_mult by lra; ring). apply ln_increasing; lra. }
  assert (Lo : bpow radix2 (-1074) <= f64_R x).
  { pose proof (abs_B2R_ge_emin 53 1024 x) as A. unfold f64_R, f64_fin in *. rewrite Rabs_pos_eq in A by lra. apply A. destruct x; try discriminate F; [cbn in P; lra|reflexivity]. }
  assert (Hi : f64_R x < bpow radix2 1024). { pose proof (abs_B2R_lt_emax 53 1024 x) as A. unfold f64_R in *. rewrite Rabs_pos_eq in A by lra. exact A. }
  assert (A1 : IZR (-1074) * ln 2 <= ln (f64_R x)). { rewrite <- LB. destruct Lo as [L|L]; [left; apply ln_increasing; [apply bpow_gt_0|exact L]|rewrite <- L; lra]. }
  assert (A2 : ln (f64_R x) < IZR 1024 * ln 2) by (rewrite <- LB; now apply ln_increasing).
  unfold log10. split; apply Rmult_le_reg_r with (ln 10); try lra; unfold Rdiv; rewrite Rmult_assoc, Rinv_l by lra; lra.
Qed.

(** the precision: 10^-p is about the fractional part, from below *)
Lemma precision_of lg s : log10_ok lg -> f64_fin s = true -> 0 < f64_R s < 1 ->
  exists p, stream_precision lg s = Ok (Z.of_nat p) /\ - INR p <= log10 (f64_R s) + / 2 ^ 40 /\ log10 (f64_R s) - / 2 ^ 40 < 1 - INR p.
Proof.
  intros (_ & LG) F B. destruct (frac_small s F ltac:(lra)) as (F1 & F2). unfold stream_precision. set (f := f64_sub s (f64_trunc s)) in *.
  destruct (LG f F1 ltac:(lra)) as (G1 & G2). rewrite F2 in G2. fold (log10 (f64_R s)) in G2. apply rabs in G2.
  assert (E40 : / 2 ^ 40 = / 1099511627776) by (f_equal; lra). rewrite E40 in *.
  destruct (floor_ok _ G1) as (H1 & H2). pose proof (Zfloor_lb (f64_R (lg f))) as LBD. pose proof (Zfloor_ub (f64_R (lg f))) as UBD.
  set (k := Zfloor (f64_R (lg f))) in *.
  pose proof (fin_log_range s F ltac:(lra)) as RG.
  assert (NEG : log10 (f64_R s) < 0).
  { unfold log10, Rdiv. pose proof ln10_pos. assert (ln (f64_R s) < 0) by (rewrite <- ln_1; apply ln_increasing; lra). assert (0 < / ln 10) by (apply Rinv_0_lt_compat; lra). nra. }
  assert (K1 : (k <= 0)%Z). { assert (IZR k < IZR 1) by lra. apply lt_IZR in H. lia. }
  assert (K2 : (-402 < k)%Z). { apply lt_IZR. lra. }
  destruct (abs_f64 _ H1) as (A1 & A2). rewrite H2 in A2. rewrite <- abs_IZR in A2.
  exists (Z.to_nat (- k)). unfold f64_to_uint32. rewrite (to_int_ok _ _ _ A1 A2).
  assert (I : INR (Z.to_nat (- k)) = - IZR k) by (rewrite INR_IZR_INZ, Z2Nat.id by lia; apply opp_IZR).
  replace (in_unsignedb 32 (Z.abs k)) with true.
  2:{ symmetry. unfold in_unsignedb. change (2 ^ 32)%Z with 4294967296%Z. lia. }
  split; [f_equal; lia|]. rewrite I. split; lra.
Qed.

(** a double next to a real number *)
Definition close (x : f64) (v : R) : Prop := f64_fin x = true /\ Rabs (f64_R x - v) <= / 2 ^ 52 * Rabs v.
Lemma precision_decimal lg s p : log10_ok lg -> (1 <= p)%nat -> close s (/ 10 ^ p) ->
  exists q, stream_precision lg s = Ok (Z.of_nat q) /\ (q = p \/ q = S p).
Proof.
  intros LG P (Fs & Cs). assert (T0 : 0 < 10 ^ p) by (apply pow_lt; lra). assert (I0 : 0 < / 10 ^ p) by now apply Rinv_0_lt_compat.
  rewrite (Rabs_pos_eq (/ 10 ^ p)) in Cs by lra. pose proof (log10_close _ _ I0 Cs) as LC. rewrite log10_pow in LC.
  assert (T10 : 10 <= 10 ^ p). { destruct p as [|p]; [lia|]. cbn [pow]. assert (1 <= 10 ^ p) by (apply pow_R1_Rle; lra). lra. }
  assert (I1 : / 10 ^ p <= / 10) by (apply Rinv_le_contravar; lra).
  apply rabs in Cs, LC. assert (E52 : / 2 ^ 52 = / 4503599627370496) by (f_equal; lra). assert (E51 : / 2 ^ 51 = / 2251799813685248) by (f_equal; lra).
  assert (E40 : / 2 ^ 40 = / 1099511627776) by (f_equal; lra). rewrite E52 in Cs. rewrite E51 in LC.
  destruct (precision_of lg s LG Fs) as (q & E & A & B); [split; nra|]. rewrite E40 in A, B.
  exists q. split; [exact E|].
  assert (Q1 : INR p < INR q + 1) by lra. assert (Q2 : INR q < INR p + 2) by lra.
  rewrite <- S_INR in Q1. apply INR_lt in Q1. replace (INR p + 2) with (INR (S (S p))) in Q2 by (rewrite !S_INR; ring). apply INR_lt in Q2. lia.
Qed.
Lemma exact_decimal s o p q K n : (1 <= p <= 200)%nat -> q = p \/ q = S p -> close s (/ 10 ^ p) -> close o (IZR K / 10 ^ p) -> (Z.abs K <= 2 ^ 44)%Z -> in_signed 32 n ->
  f64_fin (descale s o n) = true /\
  forall m, nearest_decimal q (f64_R (descale s o n)) m -> IZR m / 10 ^ q = (IZR n + IZR K) / 10 ^ p.
Proof.
  intros P Q (Fs & Cs) (Fo & Co) HK Hn. set (T := 10 ^ p) in *.
  assert (T1 : 1 <= T) by (apply pow_R1_Rle; lra). assert (I0 : 0 < / T) by (apply Rinv_0_lt_compat; lra).
  assert (IT : T * / T = 1) by (apply Rinv_r; lra).
  assert (Bn : Rabs (IZR n) <= 2147483648). { rewrite <- abs_IZR. apply IZR_le. unfold in_signed in Hn. change (2 ^ (32 - 1))%Z with 2147483648%Z in Hn. lia. }
  assert (BK : Rabs (IZR K) <= 17592186044416). { rewrite <- abs_IZR. apply IZR_le. change (2 ^ 44)%Z with 17592186044416%Z in HK. lia. }
  assert (E52 : / 2 ^ 52 = / 4503599627370496) by (f_equal; lra). rewrite E52 in *.
  unfold Rdiv in Co. rewrite Rabs_mult, (Rabs_pos_eq (/ T)) in Co by lra. rewrite (Rabs_pos_eq (/ T)) in Cs by lra.
  set (k := Rabs (IZR K)) in *. assert (K0 : 0 <= k) by apply Rabs_pos.
  assert (As : Rabs (f64_R s) <= 2 * / T). { apply rabs in Cs. apply Rabs_le. lra. }
  assert (Ls : / 2 * / T <= Rabs (f64_R s)). { apply rabs in Cs. rewrite Rabs_pos_eq; lra. }
  assert (Ao : Rabs (f64_R o) <= 2 * (k * / T)).
  { assert (0 <= k * / T) by (apply Rmult_le_pos; lra). replace (f64_R o) with ((f64_R o - IZR K * / T) + IZR K * / T) by ring.
    eapply Rle_trans; [apply Rabs_triang|]. rewrite (Rabs_mult (IZR K)), (Rabs_pos_eq (/ T)) by lra. fold k. lra. }
  assert (SO : scale_ok s).
  { split; [exact Fs|]. split.
    - apply Rle_trans with (2 := Ls). replace (bpow radix2 (-900)) with (/ 2 * / bpow radix2 899).
      2:{ rewrite <- bpow_opp. change (/ 2) with (bpow radix2 (-1)). rewrite <- bpow_plus. reflexivity. }
      apply Rmult_le_compat_l; [lra|]. apply Rinv_le_contravar; [lra|]. unfold T.
      apply Rle_trans with (bpow radix2 (4 * Z.of_nat p)); [|apply bpow_le; lia].
      clear. induction p as [|p IH]; [cbn; lra|]. replace (4 * Z.of_nat (S p))%Z with (4 + 4 * Z.of_nat p)%Z by lia. rewrite bpow_plus. cbn [pow].
      change (bpow radix2 4) with 16. pose proof (bpow_gt_0 radix2 (4 * Z.of_nat p)). nra.
    - apply Rle_trans with 2; [assert (/ T <= 1) by (rewrite <- Rinv_1; apply Rinv_le_contravar; lra); lra|]. change 2 with (bpow radix2 1). apply bpow_le. lia. }
  assert (OO : offset_ok o).
  { split; [exact Fo|]. apply Rle_trans with (1 := Ao). apply Rle_trans with (bpow radix2 45); [|apply bpow_le; lia]. change (bpow radix2 45) with 35184372088832.
    assert (/ T <= 1) by (rewrite <- Rinv_1; apply Rinv_le_contravar; lra). nra. }
  destruct (descale_err s o n SO OO Bn) as (Fd & Ed). split; [exact Fd|]. set (x := f64_R (descale s o n)) in *. clearbody x.
  assert (ER : Rabs (x * T - (IZR n + IZR K)) <= / 64).
  { assert (X1 : Rabs (x - (IZR n + IZR K) * / T) <= / 64 * / T).
    { replace (x - (IZR n + IZR K) * / T) with ((x - (IZR n * f64_R s + f64_R o)) + (IZR n * (f64_R s - / T) + (f64_R o - IZR K * / T))) by ring.
      eapply Rle_trans; [apply Rabs_triang|]. eapply Rle_trans; [apply Rplus_le_compat; [exact Ed|apply Rabs_triang]|]. rewrite (Rabs_mult (IZR n)).
      assert (M1 : Rabs (IZR n) * Rabs (f64_R s - / T) <= 2147483648 * (/ 4503599627370496 * / T)) by (apply Rmult_le_compat; auto using Rabs_pos).
      assert (M2 : k * / T <= 17592186044416 * / T) by (apply Rmult_le_compat_r; lra).
      unfold u64. lra. }
    replace (x * T - (IZR n + IZR K)) with ((x - (IZR n + IZR K) * / T) * T) by (rewrite Rmult_minus_distr_r, Rmult_assoc, Rinv_l by lra; ring).
    rewrite Rabs_mult, (Rabs_pos_eq T) by lra. apply Rle_trans with ((/ 64 * / T) * T); [apply Rmult_le_compat_r; lra|]. rewrite Rmult_assoc, Rinv_l by lra. lra. }
  intros m Hm. unfold nearest_decimal in Hm. apply rabs in ER, Hm.
  assert (UQ : forall z, -1 < IZR m - IZR z < 1 -> m = z).
  { intros z [U1 U2]. rewrite <- minus_IZR in U1, U2. change (-1) with (IZR (-1)) in U1. apply lt_IZR in U1. change 1 with (IZR 1) in U2. apply lt_IZR in U2. lia. }
  destruct Q as [-> | ->].
  - fold T in Hm |- *. rewrite (UQ (n + K)%Z); [rewrite plus_IZR; reflexivity|]. rewrite plus_IZR. lra.
  - cbn [pow] in Hm |- *. fold T in Hm |- *. rewrite (UQ (10 * (n + K))%Z); [rewrite mult_IZR, plus_IZR; field; lra|]. rewrite mult_IZR, plus_IZR.
    replace (x * (10 * T)) with (10 * (x * T)) in Hm by ring. lra.
Qed.

(** ** There is such a log10: the rounded one *)
Definition round_log10 (x : f64) : f64 :=
  let r := rnd64 (log10 (f64_R x)) in
  if Rlt_bool 0 (f64_R x) then
    binary_normalize 53 1024 prec53_gt_0 prec53_lt_emax mode_NE (Ztrunc (scaled_mantissa radix2 (SpecFloat.fexp 53 1024) r)) (cexp radix2 (SpecFloat.fexp 53 1024) r) false
  else B754_infinity 53 1024 true.
Lemma round_log10_ok : log10_ok round_log10.
Proof.
  split; intros x F H.
  - unfold round_log10. rewrite H, Rlt_bool_false by lra. reflexivity.
  - unfold round_log10. rewrite Rlt_bool_true by exact H. set (r := rnd64 (log10 (f64_R x))). cbv zeta.
    assert (G : generic_format radix2 (SpecFloat.fexp 53 1024) r) by (apply generic_format_round; [apply fexp_correct; reflexivity|apply valid_rnd_N]).
    pose proof (fin_log_range x F H) as RG. pose proof (rnd64_err (log10 (f64_R x))) as (e & h & He & Hh & Er). fold r in Er.
    set (l := log10 (f64_R x)) in *. fold (log10 (f64_R x)). fold l.
    assert (EH : eta64 <= / 2 ^ 50).
    { unfold eta64. apply Rle_trans with (bpow radix2 (-50)); [apply bpow_le; lia|]. change (bpow radix2 (-50)) with (/ IZR 1125899906842624). apply Rinv_le_contravar; lra. }
    assert (E50 : / 2 ^ 50 = / 1125899906842624) by (f_equal; lra). rewrite E50 in EH.
    assert (E40 : / 2 ^ 40 = / 1099511627776) by (f_equal; lra). rewrite E40.
    assert (U : u64 = / 9007199254740992) by (unfold u64; lra). rewrite U in He. apply rabs in He, Hh.
    assert (D : Rabs (r - l) <= / 1099511627776). { rewrite Er. apply Rabs_le. split; nra. }
    assert (B : Rabs r < bpow radix2 1024).
    { apply Rle_lt_trans with (bpow radix2 10); [|apply bpow_lt; lia]. change (bpow radix2 10) with 1024. apply rabs in D. apply Rabs_le. lra. }
    pose proof (binary_normalize_correct 53 1024 prec53_gt_0 prec53_lt_emax mode_NE (Ztrunc (scaled_mantissa radix2 (SpecFloat.fexp 53 1024) r)) (cexp radix2 (SpecFloat.fexp 53 1024) r) false) as C.
    unfold generic_format in G. rewrite <- G in C.
    assert (RR : round radix2 (SpecFloat.fexp 53 1024) (round_mode mode_NE) r = r) by (apply round_generic; [apply valid_rnd_N|exact G]).
    rewrite RR in C. rewrite Rlt_bool_true in C by exact B. destruct C as (C1 & C2 & _). split; [exact C2|]. unfold f64_R at 1. rewrite C1. exact D.
Qed.

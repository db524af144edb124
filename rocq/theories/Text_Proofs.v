(** Accuracy and monotonicity of the text form. *)
From Coq Require Import ZArith Reals Bool Lia Lra.
From Flocq Require Import Core BinarySingleNaN Binary Bits Relative.
From Verif Require Import Outcome Bytes Float64 Float64_Proofs Bounds_Proofs Coord_Api Coord_Proofs Text_Model.
Local Open Scope R_scope.

Lemma rnd64_eq x : round radix2 (FLT_exp (-1074) 53) ZnearestE x = rnd64 x.
Proof. reflexivity. Qed.
Lemma rnd64_le x y : x <= y -> rnd64 x <= rnd64 y.
Proof. intros H. unfold rnd64. apply round_le; [apply fexp_correct; reflexivity|apply valid_rnd_round_mode|exact H]. Qed.
#[local] Instance p16 : Prec_gt_0 16. Proof. reflexivity. Qed.
Lemma dec16_le x y : x <= y -> dec16 x <= dec16 y.
Proof. intros H. unfold dec16. apply round_le; [apply FLX_exp_valid; reflexivity|apply valid_rnd_N|exact H]. Qed.
Lemma dec16_0 : dec16 0 = 0.
Proof. unfold dec16. apply round_0, valid_rnd_N. Qed.
Lemma dec16_err x : Rabs (dec16 x - x) <= / 2000000000000000 * Rabs x.
Proof.
  unfold dec16. eapply Rle_trans; [apply (relative_error_N_FLX radix10 16 p16)|]. apply Rmult_le_compat_r; [apply Rabs_pos|].
  change (- (16) + 1)%Z with (-15)%Z. change (bpow radix10 (-15)) with (/ IZR (Z.pow_pos 10 15)). change (Z.pow_pos 10 15) with 1000000000000000%Z. lra.
Qed.

Lemma f64_of_R_ok x : Rabs (rnd64 x) < bpow radix2 1024 -> f64_fin (f64_of_R (rnd64 x)) = true /\ f64_R (f64_of_R (rnd64 x)) = rnd64 x.
Proof.
  intros H. unfold f64_of_R.
  assert (G : generic_format radix2 (FLT_exp (-1074) 53) (rnd64 x)) by (unfold rnd64; apply generic_format_round; [apply fexp_correct; reflexivity|apply valid_rnd_round_mode]).
  set (v := rnd64 x) in *.
  set (m := Ztrunc (scaled_mantissa radix2 (FLT_exp (-1074) 53) v)). set (e := cexp radix2 (FLT_exp (-1074) 53) v).
  assert (E : F2R (Float radix2 m e) = v) by (symmetry; exact G).
  pose proof (binary_normalize_correct 53 1024 prec53_gt_0 prec53_lt_emax mode_NE m e false) as C.
  rewrite E in C. rewrite (round_generic radix2 (SpecFloat.fexp 53 1024)) in C by (apply valid_rnd_round_mode || exact G).
  rewrite Rlt_bool_true in C by exact H. split; [exact (proj1 (proj2 C))|exact (proj1 C)].
Qed.

Lemma dec16_bpow x : Rabs x <= bpow radix2 999 -> Rabs (dec16 x) <= bpow radix2 1000.
Proof.
  intros H. pose proof (dec16_err x) as E. apply rabs in E. pose proof (Rabs_pos x).
  replace (bpow radix2 1000) with (2 * bpow radix2 999) by (change 1000%Z with (1 + 999)%Z; rewrite bpow_plus; reflexivity).
  pose proof (Rle_abs x). pose proof (Rle_abs (- x)) as H2. rewrite Rabs_Ropp in H2. apply Rabs_le. lra.
Qed.

Lemma text16_R x : f64_fin x = true -> Rabs (f64_R x) <= bpow radix2 999 ->
  exists y, text16 x = Ok y /\ f64_fin y = true /\ f64_R y = rnd64 (dec16 (f64_R x)).
Proof.
  intros Fx Hx. destruct x as [s|s|s pl e|s m e B]; try discriminate.
  - exists (B754_zero 53 1024 s). split; [reflexivity|]. split; [reflexivity|]. unfold f64_R. cbn [B2R]. rewrite dec16_0. unfold rnd64.
    now rewrite round_0 by apply valid_rnd_round_mode.
  - set (x := B754_finite 53 1024 s m e B) in *. fold (f64_R x). unfold text16. change (B2R 53 1024 x) with (f64_R x).
    pose proof (dec16_bpow _ Hx) as D. pose proof (rnd64_small _ D) as D2. rewrite rnd64_eq.
    cbv zeta. unfold x. rewrite Rlt_bool_true by exact D2. eexists. split; [reflexivity|]. now apply f64_of_R_ok.
Qed.

(** The text of a double of magnitude up to 2^999 is read back, within one part
    in 10^15 (and the spacing of the doubles around zero). *)
Theorem text16_close x : f64_fin x = true -> Rabs (f64_R x) <= bpow radix2 999 ->
  exists y, text16 x = Ok y /\ f64_fin y = true /\
    Rabs (f64_R y - f64_R x) <= / 1000000000000000 * Rabs (f64_R x) + bpow radix2 (-1075).
Proof.
  intros Fx Hx. destruct (text16_R x Fx Hx) as (y & E & Fy & R). exists y. split; [exact E|]. split; [exact Fy|].
  rewrite R. destruct (rnd64_err (dec16 (f64_R x))) as (u & h & Hu & Hh & ->). fold eta64.
  set (r := f64_R x) in *. pose proof (dec16_err r) as D. set (d := dec16 r) in *.
  assert (Dd : Rabs d <= 2 * Rabs r).
  { replace d with ((d - r) + r) by ring. eapply Rle_trans; [apply Rabs_triang|]. pose proof (Rabs_pos r). lra. }
  pose proof (err_mul d u _ u64 Dd Hu) as M. apply rabs in D. apply rabs in Hh. unfold u64 in M. apply Rabs_le.
  pose proof (Rabs_pos r). replace (d * (1 + u) + h - r) with ((d - r) + d * u + h) by ring. lra.
Qed.

Theorem text16_monotone x y a b : f64_fin x = true -> f64_fin y = true -> Rabs (f64_R x) <= bpow radix2 999 -> Rabs (f64_R y) <= bpow radix2 999 ->
  f64_R x <= f64_R y -> text16 x = Ok a -> text16 y = Ok b -> f64_R a <= f64_R b.
Proof.
  intros Fx Fy Hx Hy L Ea Eb. destruct (text16_R x Fx Hx) as (a' & E1 & _ & R1). destruct (text16_R y Fy Hy) as (b' & E2 & _ & R2).
  rewrite Ea in E1. rewrite Eb in E2. injection E1 as <-. injection E2 as <-. rewrite R1, R2. apply rnd64_le, dec16_le, L.
Qed.

(** 0.30000000000000004 (what 3 times 0.1 is) is written "0.3000000000000000". *)
Lemma round_at rx fexp (x : R) (m e : Z) : cexp rx fexp x = e -> Rabs (x * bpow rx (- e) - IZR m) < / 2 ->
  round rx fexp ZnearestE x = IZR m * bpow rx e.
Proof.
  intros E H. unfold round, scaled_mantissa. rewrite E. rewrite (Znearest_imp _ _ m) by exact H. reflexivity.
Qed.
Lemma dec16_03 : dec16 (5404319552844596 * / 18014398509481984) = 3 * / 10.
Proof.
  set (x := 5404319552844596 * / 18014398509481984).
  assert (M : mag radix10 x = 0%Z :> Z).
  { apply mag_unique_pos. change (bpow radix10 (0 - 1)) with (/ 10). change (bpow radix10 0) with 1. unfold x. lra. }
  unfold dec16. rewrite (round_at radix10 _ x 3000000000000000 (-16)).
  - change (bpow radix10 (-16)) with (/ IZR (Z.pow_pos 10 16)). change (Z.pow_pos 10 16) with 10000000000000000%Z. lra.
  - unfold cexp. rewrite M. reflexivity.
  - change (bpow radix10 (- (-16))) with (IZR (Z.pow_pos 10 16)). change (Z.pow_pos 10 16) with 10000000000000000%Z. unfold x. apply Rabs_def1; lra.
Qed.
Lemma rnd64_03 : rnd64 (3 * / 10) = 5404319552844595 * / 18014398509481984.
Proof.
  assert (M : mag radix2 (3 * / 10) = (-1)%Z :> Z).
  { apply mag_unique_pos. change (bpow radix2 (-1 - 1)) with (/ 4). change (bpow radix2 (-1)) with (/ 2). lra. }
  rewrite <- rnd64_eq. rewrite (round_at radix2 _ (3 * / 10) 5404319552844595 (-54)).
  - change (bpow radix2 (-54)) with (/ IZR (Z.pow_pos 2 54)). change (Z.pow_pos 2 54) with 18014398509481984%Z. reflexivity.
  - unfold cexp. rewrite M. reflexivity.
  - change (bpow radix2 (- (-54))) with (IZR (Z.pow_pos 2 54)). change (Z.pow_pos 2 54) with 18014398509481984%Z. apply Rabs_def1; lra.
Qed.
Definition tenth : f64 := f64_of_bits 0x3FB999999999999A.
Lemma three_tenths_R : f64_fin (f64_of_bits 0x3FD3333333333334) = true /\ f64_R (f64_of_bits 0x3FD3333333333334) = 5404319552844596 * / 18014398509481984 /\
  f64_fin (f64_of_bits 0x3FD3333333333333) = true /\ f64_R (f64_of_bits 0x3FD3333333333333) = 5404319552844595 * / 18014398509481984.
Proof.
  assert (A : f64_of_bits 0x3FD3333333333334 = B754_finite 53 1024 false 5404319552844596 (-54) eq_refl) by (apply B2FF_inj; vm_compute; reflexivity).
  assert (B : f64_of_bits 0x3FD3333333333333 = B754_finite 53 1024 false 5404319552844595 (-54) eq_refl) by (apply B2FF_inj; vm_compute; reflexivity).
  rewrite A, B. unfold f64_R, B2R, F2R. cbn [Fnum Fexp cond_Zopp].
  change (bpow radix2 (-54)) with (/ IZR (Z.pow_pos 2 54)). change (Z.pow_pos 2 54) with 18014398509481984%Z. repeat split.
Qed.
Lemma text16_03 : text16 (f64_of_bits 0x3FD3333333333334) = Ok (f64_of_bits 0x3FD3333333333333).
Proof.
  destruct three_tenths_R as (F1 & R1 & F2 & R2).
  destruct (text16_R (f64_of_bits 0x3FD3333333333334) F1) as (y & E & Fy & R).
  { rewrite R1. rewrite Rabs_pos_eq by lra. apply Rle_trans with 1; [lra|]. change 1 with (bpow radix2 0). apply bpow_le. lia. }
  rewrite E. f_equal. rewrite R1, dec16_03, rnd64_03, <- R2 in R.
  apply (B2R_inj 53 1024); [|vm_compute; reflexivity|exact R].
  destruct y as [s|s|s pl e|s m e B]; try discriminate; [|reflexivity]. exfalso. rewrite R2 in R. unfold f64_R in R. cbn [B2R] in R. lra.
Qed.
Lemma tenth_times_three : f64_mul (f64_of_Z 3) tenth = f64_of_bits 0x3FD3333333333334.
Proof. apply B2FF_inj. vm_compute. reflexivity. Qed.

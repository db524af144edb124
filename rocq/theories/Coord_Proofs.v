(** Error analysis of the coordinate conversions (point.cpp:385-457). *)
From Coq Require Import ZArith Reals Bool Lia Lra.
From Flocq Require Import Core BinarySingleNaN Binary Bits Relative.
From Verif Require Import Outcome Bytes Float64 Float64_Proofs Header_Model Point_Model Bounds_Model Bounds_Spec Bounds_Proofs Point_Spec Coord_Api.
Local Open Scope R_scope.

Definition eta64 : R := bpow radix2 (-1075).

Lemma rnd64_err x : exists e h, Rabs e <= u64 /\ Rabs h <= eta64 /\ rnd64 x = x * (1 + e) + h.
Proof.
  destruct (error_N_FLT radix2 (3 - 1024 - 53) 53 eq_refl (fun z => negb (Z.even z)) x) as (e & h & He & Hh & _ & E).
  exists e, h. split; [|split].
  - eapply Rle_trans; [exact He|]. unfold u64. change (- (53) + 1)%Z with (-52)%Z.
    change (bpow radix2 (-52)) with (/ IZR (Z.pow_pos 2 52)). change (Z.pow_pos 2 52) with 4503599627370496%Z. lra.
  - eapply Rle_trans; [exact Hh|]. unfold eta64. change (3 - 1024 - 53)%Z with (1 + -1075)%Z. rewrite bpow_plus.
    change (bpow radix2 1) with 2. lra.
  - exact E.
Qed.

(** values of magnitude up to 2^1000 do not overflow *)
Lemma rnd64_small x : Rabs x <= bpow radix2 1000 -> Rabs (rnd64 x) < bpow radix2 1024.
Proof.
  intros H. apply Rle_lt_trans with (bpow radix2 1000); [|apply bpow_lt; reflexivity].
  unfold rnd64. apply abs_round_le_generic; [apply fexp_correct; reflexivity|apply valid_rnd_round_mode| |exact H].
  apply generic_format_bpow. vm_compute. discriminate.
Qed.

Lemma add_ok x y : f64_fin x = true -> f64_fin y = true -> Rabs (f64_R x + f64_R y) <= bpow radix2 1000 ->
  f64_fin (f64_add x y) = true /\ f64_R (f64_add x y) = rnd64 (f64_R x + f64_R y).
Proof.
  intros Fx Fy H. pose proof (Bplus_correct 53 1024 eq_refl eq_refl binop_nan_pl64 mode_NE x y Fx Fy) as C.
  apply rnd64_small in H. unfold rnd64, f64_R in H. rewrite Rlt_bool_true in C by exact H. split; [exact (proj1 (proj2 C))|exact (proj1 C)].
Qed.
Lemma sub_ok x y : f64_fin x = true -> f64_fin y = true -> Rabs (f64_R x - f64_R y) <= bpow radix2 1000 ->
  f64_fin (f64_sub x y) = true /\ f64_R (f64_sub x y) = rnd64 (f64_R x - f64_R y).
Proof.
  intros Fx Fy H. pose proof (Bminus_correct 53 1024 eq_refl eq_refl binop_nan_pl64 mode_NE x y Fx Fy) as C.
  apply rnd64_small in H. unfold rnd64, f64_R in H. rewrite Rlt_bool_true in C by exact H. split; [exact (proj1 (proj2 C))|exact (proj1 C)].
Qed.
Lemma mul_ok x y : f64_fin x = true -> f64_fin y = true -> Rabs (f64_R x * f64_R y) <= bpow radix2 1000 ->
  f64_fin (f64_mul x y) = true /\ f64_R (f64_mul x y) = rnd64 (f64_R x * f64_R y).
Proof.
  intros Fx Fy H. pose proof (Bmult_correct 53 1024 eq_refl eq_refl binop_nan_pl64 mode_NE x y) as C.
  apply rnd64_small in H. unfold rnd64, f64_R in H. rewrite Rlt_bool_true in C by exact H. split; [|exact (proj1 C)].
  unfold f64_fin, f64_mul, b64_mult in *. rewrite (proj1 (proj2 C)), Fx, Fy. reflexivity.
Qed.
Lemma div_ok x y : f64_fin x = true -> f64_R y <> 0 -> Rabs (f64_R x / f64_R y) <= bpow radix2 1000 ->
  f64_fin (f64_div x y) = true /\ f64_R (f64_div x y) = rnd64 (f64_R x / f64_R y).
Proof.
  intros Fx Ny H. pose proof (Bdiv_correct 53 1024 eq_refl eq_refl binop_nan_pl64 mode_NE x y Ny) as C.
  apply rnd64_small in H. unfold rnd64, f64_R in H. rewrite Rlt_bool_true in C by exact H. split; [|exact (proj1 C)].
  unfold f64_fin, f64_div, b64_div in *. now rewrite (proj1 (proj2 C)).
Qed.

Lemma IZR_exact z : (Z.abs z <= 2 ^ 53)%Z -> rnd64 (IZR z) = IZR z.
Proof.
  intros H. unfold rnd64. apply round_generic; [apply valid_rnd_round_mode|].
  change (SpecFloat.fexp 53 1024) with (FLT_exp (3 - 1024 - 53) 53).
  destruct (Z.eq_dec (Z.abs z) (2 ^ 53)) as [E|N].
  - assert (E2 : (z = 2 ^ 53 \/ z = - 2 ^ 53)%Z) by lia. destruct E2 as [-> | ->].
    + change (IZR (2 ^ 53)) with (bpow radix2 53). apply generic_format_bpow. vm_compute. discriminate.
    + rewrite opp_IZR. apply generic_format_opp. change (IZR (2 ^ 53)) with (bpow radix2 53). apply generic_format_bpow. vm_compute. discriminate.
  - apply generic_format_FLT. exists (Float radix2 z 0); cbn [Fnum Fexp].
    + unfold F2R. cbn. ring.
    + change (radix2 ^ 53)%Z with (2 ^ 53)%Z. lia.
    + lia.
Qed.
Lemma of_Z_ok z : (Z.abs z <= 2 ^ 53)%Z -> f64_fin (f64_of_Z z) = true /\ f64_R (f64_of_Z z) = IZR z.
Proof.
  intros H. pose proof (binary_normalize_correct 53 1024 prec53_gt_0 prec53_lt_emax mode_NE z 0 false) as C.
  replace (F2R {| Fnum := z; Fexp := 0 |}) with (IZR z) in C by (unfold F2R; cbn; ring).
  pose proof (IZR_exact z H) as E. unfold rnd64 in E. rewrite E in C.
  rewrite Rlt_bool_true in C.
  - split; [exact (proj1 (proj2 C))|exact (proj1 C)].
  - rewrite <- abs_IZR. apply Rle_lt_trans with (IZR (2 ^ 53)); [now apply IZR_le|].
    change (IZR (2 ^ 53)) with (bpow radix2 53). apply bpow_lt. reflexivity.
Qed.

(** ** rounding to an integer: [sround] then truncation *)
Lemma f64_half_R : f64_fin f64_half = true /\ f64_R f64_half = / 2.
Proof.
  split; [reflexivity|].
  pose proof (binary_normalize_correct 53 1024 prec53_gt_0 prec53_lt_emax mode_NE 1 (-1) false) as C.
  assert (E2 : F2R (Float radix2 1 (-1)) = / 2) by (unfold F2R; cbn; lra).
  assert (E : round radix2 (SpecFloat.fexp 53 1024) (round_mode mode_NE) (F2R (Float radix2 1 (-1))) = / 2).
  { rewrite round_generic; [exact E2|apply valid_rnd_round_mode|].
    replace (F2R (Float radix2 1 (-1))) with (bpow radix2 (-1)) by (rewrite E2; reflexivity). apply generic_format_bpow. vm_compute. discriminate. }
  rewrite E in C. rewrite Rlt_bool_true in C.
  - exact (proj1 C).
  - rewrite Rabs_pos_eq by lra. apply Rlt_trans with (bpow radix2 0); [cbn; lra|apply bpow_lt; reflexivity].
Qed.
Lemma f64_zero_R : f64_fin f64_zero = true /\ f64_R f64_zero = 0.
Proof. split; reflexivity. Qed.

Lemma round_FIX0 rnd x : round radix2 (FIX_exp 0) rnd x = IZR (rnd x).
Proof. unfold round, scaled_mantissa, cexp, FIX_exp, F2R. cbn. rewrite !Rmult_1_r. reflexivity. Qed.

Lemma trunc_of_int x n : f64_fin x = true -> f64_R x = IZR n -> Btrunc 53 1024 x = n.
Proof.
  intros _ E. apply eq_IZR. rewrite (Btrunc_correct 53 1024 prec53_lt_emax). fold (f64_R x). rewrite E, round_FIX0, Ztrunc_IZR. reflexivity.
Qed.

(** The integer [quantise] computes from a quotient [q]. *)
Definition nearest_of (q : R) : Z :=
  if Rlt_bool 0 q then Zfloor (rnd64 (q + / 2)) else Zceil (rnd64 (q - / 2)).
Lemma sround_ok x : f64_fin x = true -> Rabs (f64_R x) <= bpow radix2 999 ->
  f64_fin (sround x) = true /\ f64_R (sround x) = IZR (nearest_of (f64_R x)).
Proof.
  intros F B. destruct f64_half_R as (HF & HR). destruct f64_zero_R as (ZF & ZR).
  assert (B1 : forall y, Rabs y <= / 2 -> Rabs (f64_R x + y) <= bpow radix2 1000).
  { intros y Hy. apply Rle_trans with (Rabs (f64_R x) + Rabs y); [apply Rabs_triang|].
    change 1000%Z with (1 + 999)%Z. rewrite bpow_plus. change (bpow radix2 1) with 2.
    assert (1 <= bpow radix2 999) by (apply (bpow_le radix2 0 999); lia). lra. }
  unfold sround, nearest_of. unfold f64_gt. destruct (fcase_lt f64_zero x ZF F) as [(-> & L)|(-> & L)]; rewrite ZR in L.
  - rewrite Rlt_bool_true by exact L.
    destruct (add_ok x f64_half F HF) as (A1 & A2). { rewrite HR. apply B1. rewrite Rabs_pos_eq; lra. }
    pose proof (Bnearbyint_correct 53 1024 prec53_lt_emax unop_nan_pl64 mode_DN (f64_add x f64_half)) as (N1 & N2 & _).
    split; [unfold f64_fin, f64_floor; rewrite N2; exact A1|]. unfold f64_R, f64_floor. rewrite N1, round_FIX0. fold (f64_R (f64_add x f64_half)).
    rewrite A2, HR. reflexivity.
  - rewrite Rlt_bool_false by exact L.
    destruct (sub_ok x f64_half F HF) as (A1 & A2). { rewrite HR. apply B1. rewrite Rabs_Ropp, Rabs_pos_eq; lra. }
    pose proof (Bnearbyint_correct 53 1024 prec53_lt_emax unop_nan_pl64 mode_UP (f64_sub x f64_half)) as (N1 & N2 & _).
    split; [unfold f64_fin, f64_ceil; rewrite N2; exact A1|]. unfold f64_R, f64_ceil. rewrite N1, round_FIX0. fold (f64_R (f64_sub x f64_half)).
    rewrite A2, HR. reflexivity.
Qed.
Lemma to_int32_ok x n : f64_fin x = true -> f64_R x = IZR n -> f64_to_int32 x = if in_signedb 32 n then Ok n else UB UBFloatToInt.
Proof.
  intros F E. unfold f64_to_int32, f64_to_int. unfold f64_fin in F. rewrite F, (trunc_of_int x n F E). cbn [andb]. reflexivity.
Qed.

(** bounds on products of errors *)
Lemma err_mul x e X u : Rabs x <= X -> Rabs e <= u -> - (X * u) <= x * e <= X * u.
Proof.
  intros Hx He. apply Rabs_le_inv. rewrite Rabs_mult. apply Rmult_le_compat; auto using Rabs_pos.
Qed.
Lemma rabs x b : Rabs x <= b -> - b <= x <= b. Proof. apply Rabs_le_inv. Qed.
Lemma eta_small : eta64 <= / 1000000000000.
Proof.
  unfold eta64. apply Rle_trans with (bpow radix2 (-40)); [apply bpow_le; lia|].
  change (bpow radix2 (-40)) with (/ IZR (Z.pow_pos 2 40)). change (Z.pow_pos 2 40) with 1099511627776%Z. lra.
Qed.

(** the integer found differs from q by at most 1/2 and a rounding error *)
Lemma nearest_err q : Rabs q <= 8589934592 -> Rabs (IZR (nearest_of q) - q) <= / 2 + / 524288.
Proof.
  intros B. apply rabs in B. unfold nearest_of. destruct (Rlt_bool_spec 0 q) as [L|L].
  - destruct (rnd64_err (q + / 2)) as (e & h & He & Hh & E).
    pose proof (err_mul (q + / 2) e 8589934593 u64 ltac:(apply Rabs_le; lra) He) as M. apply rabs in Hh. pose proof eta_small as ES. unfold u64 in M.
    pose proof (Zfloor_lb (rnd64 (q + / 2))) as F1. pose proof (Zfloor_ub (rnd64 (q + / 2))) as F2. generalize dependent (Zfloor (rnd64 (q + / 2))). intros k F1 F2. rewrite E in F1, F2.
    apply Rabs_le. lra.
  - destruct (rnd64_err (q - / 2)) as (e & h & He & Hh & E).
    pose proof (err_mul (q - / 2) e 8589934593 u64 ltac:(apply Rabs_le; lra) He) as M. apply rabs in Hh. pose proof eta_small as ES. unfold u64 in M.
    pose proof (Zceil_ub (rnd64 (q - / 2))) as F1. pose proof (Zceil_lb (rnd64 (q - / 2))) as F2. generalize dependent (Zceil (rnd64 (q - / 2))). intros k F1 F2. rewrite E in F1, F2.
    apply Rabs_le. lra.
Qed.
(** ... so it is [n] when q is close to [n] *)
Lemma nearest_exact q n : Rabs (IZR n) <= 4294967296 -> Rabs (q - IZR n) <= / 4 -> nearest_of q = n.
Proof.
  intros Bn Bq. apply rabs in Bn. apply rabs in Bq.
  pose proof (nearest_err q ltac:(apply Rabs_le; lra)) as N. apply rabs in N.
  assert (A : -1 < IZR (nearest_of q - n) < 1) by (rewrite minus_IZR; lra).
  destruct A as (A1 & A2). apply lt_IZR in A1, A2. lia.
Qed.

(** ** the conversions *)

Lemma eta_scale s : bpow radix2 (-900) <= s -> eta64 <= s * / 1000000000000.
Proof.
  intros H. unfold eta64. apply Rle_trans with (bpow radix2 (-900) * bpow radix2 (-40)).
  - rewrite <- bpow_plus. apply bpow_le. lia.
  - apply Rmult_le_compat; [apply bpow_ge_0|apply bpow_ge_0|exact H|].
    change (bpow radix2 (-40)) with (/ IZR (Z.pow_pos 2 40)). change (Z.pow_pos 2 40) with 1099511627776%Z. lra.
Qed.
Lemma pow_mul k S a b : (0 <= k)%Z -> 0 <= S -> S <= bpow radix2 a -> (k + a <= b)%Z -> bpow radix2 k * S <= bpow radix2 b.
Proof.
  intros Hk HS H Hb. apply Rle_trans with (bpow radix2 k * bpow radix2 a).
  - apply Rmult_le_compat_l; [apply bpow_ge_0|exact H].
  - rewrite <- bpow_plus. now apply bpow_le.
Qed.

Lemma descale_err s o n : scale_ok s -> offset_ok o -> Rabs (IZR n) <= 2147483648 ->
  f64_fin (descale s o n) = true /\
  Rabs (f64_R (descale s o n) - (IZR n * f64_R s + f64_R o)) <= Rabs (f64_R s) * / 1048576 + u64 * Rabs (f64_R o).
Proof.
  intros (Fs & S1 & S2) (Fo & O1) Bn. unfold descale.
  assert (Zn : (Z.abs n <= 2 ^ 53)%Z).
  { apply Rle_trans with (r3 := 9007199254740992) in Bn; [|lra]. rewrite <- abs_IZR in Bn. apply le_IZR in Bn. exact Bn. }
  destruct (of_Z_ok n Zn) as (Fn & Rn).
  set (S := Rabs (f64_R s)) in *. set (O := Rabs (f64_R o)) in *.
  assert (S0 : 0 < S) by (apply Rlt_le_trans with (2 := S1); apply bpow_gt_0).
  pose proof (eta_scale S S1) as ES.
  pose proof (pow_mul 31 S 900 931 ltac:(lia) ltac:(lra) S2 ltac:(lia)) as P31. change (bpow radix2 31) with 2147483648 in P31.
  assert (BP : forall k, (k <= 1000)%Z -> bpow radix2 k <= bpow radix2 1000) by (intros; now apply bpow_le).
  assert (NS : Rabs (IZR n * f64_R s) <= 2147483648 * S) by (rewrite Rabs_mult; apply Rmult_le_compat_r; [lra|exact Bn]).
  destruct (mul_ok (f64_of_Z n) s Fn Fs) as (Fm & Rm). { rewrite Rn. apply Rle_trans with (1 := NS). apply Rle_trans with (1 := P31). apply BP. lia. }
  rewrite Rn in Rm. destruct (rnd64_err (IZR n * f64_R s)) as (e1 & h1 & He1 & Hh1 & E1). rewrite E1 in Rm.
  pose proof (err_mul _ e1 _ u64 NS He1) as M1. unfold u64 in M1.
  set (a := f64_R (f64_mul (f64_of_Z n) s)) in *. set (p := IZR n * f64_R s) in *.
  apply rabs in NS. apply rabs in Hh1.
  assert (A1 : Rabs a <= 2147483649 * S) by (apply Rabs_le; rewrite Rm; lra).
  pose proof (pow_mul 32 S 900 932 ltac:(lia) ltac:(lra) S2 ltac:(lia)) as P32. change (bpow radix2 32) with 4294967296 in P32.
  assert (AO : Rabs (a + f64_R o) <= 2147483649 * S + O) by (eapply Rle_trans; [apply Rabs_triang|]; fold O; lra).
  destruct (add_ok (f64_mul (f64_of_Z n) s) o Fm Fo) as (Fa & Ra).
  { fold a. apply Rle_trans with (1 := AO). apply Rle_trans with (bpow radix2 950 + bpow radix2 950).
    - apply Rplus_le_compat; [|exact O1]. apply Rle_trans with (bpow radix2 932); [lra|apply bpow_le; lia].
    - replace (bpow radix2 950 + bpow radix2 950) with (bpow radix2 1 * bpow radix2 950) by (change (bpow radix2 1) with 2; ring).
      rewrite <- bpow_plus. apply bpow_le. lia. }
  split; [exact Fa|]. fold a in Ra. rewrite Ra. destruct (rnd64_err (a + f64_R o)) as (e2 & h2 & He2 & Hh2 & E2). rewrite E2.
  pose proof (err_mul _ e2 _ u64 AO He2) as M2. unfold u64 in *. apply rabs in Hh2. apply Rabs_le. rewrite Rmult_plus_distr_r in M2. lra.
Qed.

(** the quotient [quantise] computes *)
Lemma quotient_err s o v : scale_ok s -> f64_fin o = true -> f64_fin v = true ->
  Rabs (f64_R v - f64_R o) <= 4294967296 * Rabs (f64_R s) ->
  let q := f64_div (f64_sub v o) s in
  f64_fin q = true /\ Rabs (f64_R q - (f64_R v - f64_R o) / f64_R s) <= / 524288.
Proof.
  intros (Fs & S1 & S2) Fo Fv B. cbv zeta.
  set (S := Rabs (f64_R s)) in *.
  assert (S0 : 0 < S) by (apply Rlt_le_trans with (2 := S1); apply bpow_gt_0).
  pose proof (eta_scale S S1) as ES.
  assert (Ns : f64_R s <> 0) by (intros X; unfold S in S0; rewrite X, Rabs_R0 in S0; lra).
  pose proof (pow_mul 33 S 900 933 ltac:(lia) ltac:(lra) S2 ltac:(lia)) as P33. change (bpow radix2 33) with 8589934592 in P33.
  assert (P1000 : bpow radix2 933 <= bpow radix2 1000) by (apply bpow_le; lia).
  destruct (sub_ok v o Fv Fo) as (Fd & Rd). { lra. }
  destruct (rnd64_err (f64_R v - f64_R o)) as (e1 & h1 & He1 & Hh1 & E1). rewrite E1 in Rd.
  set (D := f64_R (f64_sub v o)) in *. set (w := f64_R v - f64_R o) in *.
  set (t := w / f64_R s).
  assert (Bt : Rabs t <= 4294967296).
  { unfold t, Rdiv. rewrite Rabs_mult, Rabs_inv. fold S. apply Rmult_le_reg_r with S; [exact S0|]. rewrite Rmult_assoc, Rinv_l by lra. lra. }
  assert (Dt : D / f64_R s = t * (1 + e1) + h1 / f64_R s) by (unfold t; rewrite Rd; field; exact Ns).
  assert (Hs : Rabs (h1 / f64_R s) <= / 1000000000000).
  { unfold Rdiv. rewrite Rabs_mult, Rabs_inv. fold S. apply Rmult_le_reg_r with S; [exact S0|]. rewrite Rmult_assoc, Rinv_l by lra. lra. }
  pose proof (err_mul t e1 _ u64 Bt He1) as M1. unfold u64 in M1. apply rabs in Bt, Hs.
  set (g := h1 / f64_R s) in *. set (m := D / f64_R s) in *.
  assert (Bm : Rabs m <= 4294967297) by (apply Rabs_le; rewrite Dt; lra).
  destruct (div_ok (f64_sub v o) s Fd Ns) as (Fq & Rq).
  { fold D m. apply Rle_trans with (1 := Bm). apply Rle_trans with (bpow radix2 33); [change (bpow radix2 33) with 8589934592; lra|apply bpow_le; lia]. }
  split; [exact Fq|]. rewrite Rq. fold D m. destruct (rnd64_err m) as (e2 & h2 & He2 & Hh2 & E2). rewrite E2.
  pose proof (err_mul m e2 _ u64 Bm He2) as M2. unfold u64 in M2. apply rabs in Hh2. pose proof eta_small as EM.
  apply Rabs_le. lra.
Qed.

Lemma quantise_spec s o v : scale_ok s -> f64_fin o = true -> f64_fin v = true ->
  Rabs (f64_R v - f64_R o) <= 4294967296 * Rabs (f64_R s) ->
  exists q, quantise s o v = (if in_signedb 32 (nearest_of q) then Ok (nearest_of q) else UB UBFloatToInt) /\
    Rabs (q - (f64_R v - f64_R o) / f64_R s) <= / 524288 /\ Rabs q <= 8589934592.
Proof.
  intros Hs Fo Fv B. destruct (quotient_err s o v Hs Fo Fv B) as (Fq & Eq). cbv zeta in *.
  exists (f64_R (f64_div (f64_sub v o) s)).
  assert (S0 : 0 < Rabs (f64_R s)) by (destruct Hs as (_ & S1 & _); apply Rlt_le_trans with (2 := S1); apply bpow_gt_0).
  assert (Bt : Rabs ((f64_R v - f64_R o) / f64_R s) <= 4294967296).
  { unfold Rdiv. rewrite Rabs_mult, Rabs_inv. apply Rmult_le_reg_r with (Rabs (f64_R s)); [exact S0|]. rewrite Rmult_assoc, Rinv_l by lra. lra. }
  assert (Bq : Rabs (f64_R (f64_div (f64_sub v o) s)) <= 8589934592).
  { apply rabs in Bt. apply rabs in Eq. apply Rabs_le. lra. }
  split; [|split; [exact Eq|exact Bq]].
  unfold quantise. destruct (sround_ok _ Fq) as (F2 & R2).
  { apply Rle_trans with (1 := Bq). change 8589934592 with (bpow radix2 33). apply bpow_le. lia. }
  now apply to_int32_ok.
Qed.

(** C05 *)
Lemma raw_round_trip s o n : scale_ok s -> f64_fin o = true -> Rabs (f64_R o) <= 1125899906842624 * Rabs (f64_R s) ->
  in_signed 32 n -> quantise s o (descale s o n) = Ok n.
Proof.
  intros Hs Fo HO Hn. pose proof Hs as (Fs & S1 & S2).
  assert (S0 : 0 < Rabs (f64_R s)) by (apply Rlt_le_trans with (2 := S1); apply bpow_gt_0).
  assert (Ns : f64_R s <> 0) by (intros X; rewrite X, Rabs_R0 in S0; lra).
  assert (Oo : offset_ok o).
  { split; [exact Fo|]. apply Rle_trans with (1 := HO). change 1125899906842624 with (bpow radix2 50). apply (pow_mul 50 _ 900); [lia|lra|exact S2|lia]. }
  assert (Bn : Rabs (IZR n) <= 2147483648).
  { unfold in_signed in Hn. rewrite <- abs_IZR. apply IZR_le. change (2 ^ (32 - 1))%Z with 2147483648%Z in Hn. lia. }
  destruct (descale_err s o n Hs Oo Bn) as (Fx & Ex).
  set (x := f64_R (descale s o n)) in *.
  assert (Ex' : Rabs (x - (IZR n * f64_R s + f64_R o)) <= Rabs (f64_R s) * / 7).
  { eapply Rle_trans; [exact Ex|]. unfold u64. lra. }
  assert (Et : Rabs ((x - f64_R o) / f64_R s - IZR n) <= / 7).
  { replace ((x - f64_R o) / f64_R s - IZR n) with ((x - (IZR n * f64_R s + f64_R o)) / f64_R s) by (field; exact Ns).
    unfold Rdiv. rewrite Rabs_mult, Rabs_inv. apply Rmult_le_reg_r with (Rabs (f64_R s)); [exact S0|]. rewrite Rmult_assoc, Rinv_l by lra. lra. }
  destruct (quantise_spec s o (descale s o n) Hs Fo Fx) as (q & -> & Eq & _).
  { fold x. replace (x - f64_R o) with ((x - f64_R o) / f64_R s * f64_R s) by (field; exact Ns). rewrite Rabs_mult.
    apply Rmult_le_compat_r; [lra|]. apply rabs in Et. apply rabs in Bn. apply Rabs_le. lra. }
  fold x in Eq. rewrite (nearest_exact q n).
  - unfold in_signed in Hn. unfold in_signedb. destruct (Z.leb_spec (- 2 ^ (32 - 1)) n), (Z.ltb_spec n (2 ^ (32 - 1))); cbn [andb]; try lia. reflexivity.
  - lra.
  - apply rabs in Eq. apply rabs in Et. apply Rabs_le. lra.
Qed.

(** C06 *)
Lemma quantise_round_trip s o v : scale_ok s -> offset_ok o -> f64_fin v = true ->
  Rabs (f64_R v - f64_R o) <= 2147483647 * Rabs (f64_R s) ->
  exists n, quantise s o v = Ok n /\ (- 2147483647 <= n <= 2147483647)%Z /\ f64_fin (descale s o n) = true /\
    Rabs (f64_R (descale s o n) - f64_R v) <= Rabs (f64_R s) * (/ 2 + / 131072) + u64 * Rabs (f64_R o).
Proof.
  intros Hs Oo Fv B. pose proof Hs as (Fs & S1 & S2). pose proof Oo as (Fo & _).
  assert (S0 : 0 < Rabs (f64_R s)) by (apply Rlt_le_trans with (2 := S1); apply bpow_gt_0).
  assert (Ns : f64_R s <> 0) by (intros X; rewrite X, Rabs_R0 in S0; lra).
  destruct (quantise_spec s o v Hs Fo Fv) as (q & -> & Eq & Bq). { lra. }
  pose proof (nearest_err q Bq) as EN. set (n := nearest_of q) in *.
  set (t := (f64_R v - f64_R o) / f64_R s) in *.
  assert (Bt : Rabs t <= 2147483647).
  { unfold t, Rdiv. rewrite Rabs_mult, Rabs_inv. apply Rmult_le_reg_r with (Rabs (f64_R s)); [exact S0|]. rewrite Rmult_assoc, Rinv_l by lra. lra. }
  assert (Ent : Rabs (IZR n - t) <= / 2 + / 262144).
  { apply rabs in Eq. apply rabs in EN. apply Rabs_le. lra. }
  assert (Bn : (- 2147483647 <= n <= 2147483647)%Z).
  { apply rabs in Bt. apply rabs in Ent.
    assert (H1 : (-2147483648 < n)%Z) by (apply lt_IZR; lra). assert (H2 : (n < 2147483648)%Z) by (apply lt_IZR; lra). lia. }
  exists n. split.
  { assert (I : in_signedb 32 n = true).
    { unfold in_signedb. apply andb_true_iff. change (2 ^ (32 - 1))%Z with 2147483648%Z. split; [apply Z.leb_le|apply Z.ltb_lt]; lia. }
    now rewrite I. }
  split; [exact Bn|].
  assert (Bn' : Rabs (IZR n) <= 2147483648) by (rewrite <- abs_IZR; apply IZR_le; lia).
  destruct (descale_err s o n Hs Oo Bn') as (Fx & Ex). split; [exact Fx|].
  replace (f64_R (descale s o n) - f64_R v) with
    ((f64_R (descale s o n) - (IZR n * f64_R s + f64_R o)) + (IZR n - t) * f64_R s) by (unfold t; field; exact Ns).
  eapply Rle_trans; [apply Rabs_triang|]. rewrite Rabs_mult.
  assert (M : Rabs (IZR n - t) * Rabs (f64_R s) <= (/ 2 + / 262144) * Rabs (f64_R s)) by (apply Rmult_le_compat_r; [lra|exact Ent]).
  lra.
Qed.

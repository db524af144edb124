(** Facts about the binary64 operations used by the model. *)
From Coq Require Import ZArith Reals Bool Lia Lra.
From Flocq Require Import Core BinarySingleNaN Binary Bits.
From Verif Require Import Outcome Bytes Float64.
Local Open Scope R_scope.

Definition f64_fin (x : f64) : bool := is_finite 53 1024 x.
Definition f64_R (x : f64) : R := B2R 53 1024 x.

Lemma f64_compare_R x y : f64_fin x = true -> f64_fin y = true ->
  b64_compare x y = Some (Rcompare (f64_R x) (f64_R y)).
Proof. intros Hx Hy. unfold b64_compare. now apply Bcompare_correct. Qed.

Lemma f64_le_R x y : f64_fin x = true -> f64_fin y = true -> f64_le x y = true <-> f64_R x <= f64_R y.
Proof.
  intros Hx Hy. unfold f64_le. rewrite f64_compare_R by assumption.
  destruct (Rcompare_spec (f64_R x) (f64_R y)); split; intros; try reflexivity; try discriminate; lra.
Qed.
Lemma f64_lt_R x y : f64_fin x = true -> f64_fin y = true -> f64_lt x y = true <-> f64_R x < f64_R y.
Proof.
  intros Hx Hy. unfold f64_lt. rewrite f64_compare_R by assumption.
  destruct (Rcompare_spec (f64_R x) (f64_R y)); split; intros; try reflexivity; try discriminate; lra.
Qed.
Lemma f64_eq_R x y : f64_fin x = true -> f64_fin y = true -> f64_eq x y = true <-> f64_R x = f64_R y.
Proof.
  intros Hx Hy. unfold f64_eq. rewrite f64_compare_R by assumption.
  destruct (Rcompare_spec (f64_R x) (f64_R y)); split; intros; try reflexivity; try discriminate; lra.
Qed.

Lemma f64_epsilon_R : f64_fin f64_epsilon = true /\ f64_R f64_epsilon = bpow radix2 (-52).
Proof.
  split; [reflexivity|].
  assert (E : f64_epsilon = B754_finite 53 1024 false (2 ^ 52) (-104) eq_refl).
  { apply B2FF_inj. vm_compute. reflexivity. }
  rewrite E. unfold f64_R, B2R, F2R. cbn [Fnum Fexp cond_Zopp].
  change (Z.pos (2 ^ 52)) with (2 ^ 52)%Z. change (IZR (2 ^ 52)) with (bpow radix2 52).
  rewrite <- bpow_plus. reflexivity.
Qed.
Lemma f64_opp_R x : f64_R (f64_opp x) = - f64_R x.
Proof. unfold f64_R, f64_opp, b64_opp. apply B2R_Bopp. Qed.
Lemma f64_opp_fin x : f64_fin (f64_opp x) = f64_fin x.
Proof. unfold f64_fin, f64_opp, b64_opp. apply is_finite_Bopp. Qed.

Lemma f64_sub_self x : f64_fin x = true -> f64_fin (f64_sub x x) = true /\ f64_R (f64_sub x x) = 0.
Proof.
  intros H. unfold f64_sub, b64_minus, f64_R, f64_fin.
  pose proof (Bminus_correct 53 1024 eq_refl eq_refl binop_nan_pl64 mode_NE x x H H) as C.
  replace (B2R 53 1024 x - B2R 53 1024 x) with 0 in C by ring.
  rewrite round_0 in C by (apply valid_rnd_N || apply valid_rnd_round_mode).
  rewrite Rabs_R0 in C. rewrite Rlt_bool_true in C by apply bpow_gt_0.
  destruct C as (C1 & C2 & _). split; [exact C2|exact C1].
Qed.

Lemma compare_distance_refl x : f64_fin x = true -> compare_distance x x = true.
Proof.
  intros H. destruct (f64_sub_self x H) as (F & R). destruct f64_epsilon_R as (EF & ER).
  pose proof (bpow_gt_0 radix2 (-52)) as P.
  unfold compare_distance. apply andb_true_iff. split.
  - apply f64_le_R; auto. rewrite R, ER. lra.
  - unfold f64_ge. apply f64_le_R; [now rewrite f64_opp_fin|exact F|]. rewrite f64_opp_R, R, ER. lra.
Qed.

(** Partition(): floating-point accumulation of the boundaries. *)
From Coq Require Import ZArith Reals List Bool Lia Lra.
Import ListNotations.
From Flocq Require Import Core.
From Verif Require Import Outcome Bytes Float64 Float64_Proofs Bounds_Proofs Coord_Api Coord_Proofs Chipper_Model Chipper_Spec.
Local Open Scope R_scope.
Local Notation length := List.length (only parsing).

Lemma to_uint32_ok x n : f64_fin x = true -> f64_R x = IZR n -> f64_to_uint32 x = if in_unsignedb 32 n then Ok n else UB UBFloatToInt.
Proof.
  intros F E. unfold f64_to_uint32, f64_to_int. unfold f64_fin in F. rewrite F, (trunc_of_int x n F E). cbn [andb]. reflexivity.
Qed.

(** the running total *)
Fixpoint running (sigma : R) (k : nat) : R := match k with O => 0 | S j => rnd64 (running sigma j + sigma) end.
Definition bound_at (sigma : R) (k : nat) : Z := nearest_of (running sigma k).

Lemma boundaries_trace step N : f64_fin step = true -> 0 <= f64_R step <= 4294967296 ->
  (forall k, (k <= N)%nat -> 0 <= running (f64_R step) k <= 8589934592 /\ (0 <= bound_at (f64_R step) k < 2 ^ 32)%Z) ->
  forall n k total, (k + n = N)%nat -> f64_fin total = true -> f64_R total = running (f64_R step) k ->
  boundaries n total step = Ok (map (bound_at (f64_R step)) (seq (S k) n)).
Proof.
  intros FS BS B. induction n as [|n IH]; intros k total E FT ET; [reflexivity|]. cbn [boundaries seq map].
  destruct (B k ltac:(lia)) as (B1 & _). destruct (B (S k) ltac:(lia)) as (B2 & B3).
  assert (BIG : 17179869184 <= bpow radix2 999).
  { apply Rle_trans with (bpow radix2 34); [|apply bpow_le; lia]. apply Req_le. reflexivity. }
  assert (BIG2 : bpow radix2 999 <= bpow radix2 1000) by (apply bpow_le; lia).
  destruct (add_ok total step FT FS) as (A1 & A2). { rewrite ET. rewrite Rabs_pos_eq; lra. }
  assert (A3 : f64_R (f64_add total step) = running (f64_R step) (S k)) by (rewrite A2, ET; reflexivity).
  destruct (sround_ok (f64_add total step) A1) as (R1 & R2). { rewrite A3. rewrite Rabs_pos_eq; lra. }
  rewrite A3 in R2. fold (bound_at (f64_R step) (S k)) in R2. rewrite (to_uint32_ok _ _ R1 R2).
  replace (in_unsignedb 32 (bound_at (f64_R step) (S k))) with true.
  2:{ symmetry. unfold in_unsignedb. apply andb_true_intro. split; [apply Z.leb_le; lia|apply Z.ltb_lt; lia]. }
  cbn [obind]. rewrite (IH (S k) _ ltac:(lia) A1 A3). reflexivity.
Qed.

Lemma blocks_wanted_le T S : (0 < T -> 0 < S -> 1 <= blocks_wanted T S <= S)%Z.
Proof.
  intros HT HS. unfold blocks_wanted. split.
  - apply Z.div_le_lower_bound; lia.
  - apply Z.lt_succ_r. apply Z.div_lt_upper_bound; [lia|]. nia.
Qed.
Lemma num_partitions_ok T S : (0 < T -> 0 <= S -> num_partitions T S = Ok (blocks_wanted T S))%Z.
Proof.
  intros HT HS. unfold num_partitions, blocks_wanted. destruct (Z.eqb_spec T 0); [lia|]. f_equal.
  pose proof (Z.div_mod S T ltac:(lia)) as DM. pose proof (Z.mod_pos_bound S T HT) as MB.
  set (q := (S / T)%Z) in *. set (r := (S mod T)%Z) in *.
  destruct (Z.eqb_spec r 0) as [E|N].
  - rewrite Z.add_0_r. apply (Z.div_unique_pos _ _ _ (T - 1)%Z); lia.
  - apply (Z.div_unique_pos _ _ _ (r - 1)%Z); lia.
Qed.

Lemma rnd64_abs x M : Rabs x <= M -> Rabs (rnd64 x - x) <= u64 * M + eta64.
Proof.
  intros H. destruct (rnd64_err x) as (e & h & He & Hh & ->). replace (x * (1 + e) + h - x) with (x * e + h) by ring.
  eapply Rle_trans; [apply Rabs_triang|]. apply Rplus_le_compat; [|exact Hh]. rewrite Rabs_mult, Rmult_comm.
  apply Rmult_le_compat; auto using Rabs_pos.
Qed.
Lemma nearest_nonneg t : 0 <= t -> nearest_of t = Zfloor (rnd64 (t + / 2)).
Proof.
  intros H. unfold nearest_of. destruct (Rlt_bool_spec 0 t) as [L|L]; [reflexivity|].
  assert (t = 0) as -> by lra. replace (0 - / 2) with (- / 2) by ring. replace (0 + / 2) with (/ 2) by ring.
  assert (H2 : forall s, rnd64 (s * / 2) = s * / 2 \/ True) by auto.
  assert (G : rnd64 (/ 2) = / 2).
  { unfold rnd64. apply round_generic; [apply valid_rnd_N|]. replace (/ 2) with (bpow radix2 (-1)) by (cbn; lra). apply generic_format_bpow. vm_compute. discriminate. }
  assert (G' : rnd64 (- / 2) = - / 2).
  { unfold rnd64. apply round_generic; [apply valid_rnd_N|]. apply generic_format_opp. replace (/ 2) with (bpow radix2 (-1)) by (cbn; lra). apply generic_format_bpow. vm_compute. discriminate. }
  rewrite G, G'. rewrite (Zfloor_imp 0) by (cbn; lra). apply Zceil_imp. cbn. lra.
Qed.
Lemma floor_diff a b (q : Z) : IZR q <= b - a <= IZR q + 1 -> (q <= Zfloor b - Zfloor a <= q + 1)%Z.
Proof.
  intros (L & U). split.
  - assert (H : (Zfloor a + q <= Zfloor b)%Z) by (apply Zfloor_lub; rewrite plus_IZR; pose proof (Zfloor_lb a); lra). lia.
  - assert (H : (Zfloor b < Zfloor a + q + 2)%Z).
    { apply lt_IZR. rewrite !plus_IZR. pose proof (Zfloor_lb b). pose proof (Zfloor_ub a). lra. }
    lia.
Qed.

Section Drift.
Variables S N : Z.
Hypothesis HN : (1 <= N <= S)%Z.
Hypothesis HS : (S < 2 ^ 32)%Z.
Hypothesis HSN : (S * N <= 2 ^ 50)%Z.
Let D : R := IZR S / IZR N.
Let sigma : R := rnd64 D.
Let eps : R := u64 * (IZR S + 1) + u64 * D + 2 * eta64.

Lemma N_small : (N <= 2 ^ 25)%Z.
Proof. destruct (Z.le_gt_cases N (2 ^ 25)) as [|G]; [assumption|]. assert (2 ^ 50 < N * N)%Z by nia. nia. Qed.
Lemma reals : 1 <= IZR N <= 33554432 /\ IZR N <= IZR S <= 4294967295 /\ IZR S * IZR N <= 1125899906842624 /\ D * IZR N = IZR S /\ 1 <= D <= IZR S.
Proof.
  pose proof N_small. assert (N1 : 1 <= IZR N) by (apply IZR_le; lia).
  assert (DN : D * IZR N = IZR S) by (unfold D; field; lra).
  assert (NS : IZR N <= IZR S) by (apply IZR_le; lia).
  assert (D1 : 1 <= D). { apply Rmult_le_reg_r with (IZR N); lra. }
  repeat split; auto.
  - apply IZR_le. lia.
  - apply IZR_le. lia.
  - rewrite <- mult_IZR. apply IZR_le. lia.
  - rewrite <- DN. rewrite <- (Rmult_1_r D) at 1. apply Rmult_le_compat_l; lra.
Qed.
Lemma eps_small : IZR N * eps <= / 6.
Proof.
  destruct reals as (N1 & S1 & SN & DN & D1). unfold eps. pose proof eta_small as E. assert (E0 : 0 <= eta64) by (unfold eta64; apply bpow_ge_0).
  replace (IZR N * (u64 * (IZR S + 1) + u64 * D + 2 * eta64)) with (u64 * (IZR S * IZR N) + u64 * IZR N + u64 * (D * IZR N) + 2 * (IZR N * eta64)) by ring.
  rewrite DN. assert (IZR N * eta64 <= 33554432 * / 1000000000000) by (apply Rmult_le_compat; lra). unfold u64. lra.
Qed.
Lemma eps_pos : 0 <= eps.
Proof.
  destruct reals as (N1 & S1 & SN & DN & D1). assert (E0 : 0 <= eta64) by (unfold eta64; apply bpow_ge_0). unfold eps, u64. lra.
Qed.
Lemma sigma_err : Rabs (sigma - D) <= u64 * D + eta64.
Proof. destruct reals as (N1 & S1 & SN & DN & D1). apply rnd64_abs. rewrite Rabs_pos_eq; lra. Qed.
Lemma k_eps k : 0 <= k <= IZR N -> k * eps <= / 6.
Proof. intros H. eapply Rle_trans; [|apply eps_small]. apply Rmult_le_compat_r; [apply eps_pos|lra]. Qed.
Lemma step_err t k : 0 <= k -> k + 1 <= IZR N -> Rabs (t - k * D) <= k * eps ->
  Rabs (rnd64 (t + sigma) - (k + 1) * D) <= (k + 1) * eps /\ Rabs (rnd64 (t + sigma) - t - D) <= eps.
Proof.
  intros K1 K2 H. destruct reals as (N1 & S1 & SN & DN & D1). pose proof (k_eps k ltac:(lra)) as KE. pose proof sigma_err as SE.
  assert (E0 : 0 <= eta64) by (unfold eta64; apply bpow_ge_0). pose proof eta_small as ES.
  apply rabs in H. apply rabs in SE.
  assert (KD : 0 <= k * D) by (apply Rmult_le_pos; lra).
  assert (KD2 : k * D + D <= IZR S). { rewrite <- DN. replace (k * D + D) with (D * (k + 1)) by ring. apply Rmult_le_compat_l; lra. }
  assert (UD : 0 <= u64 * D <= / 1000000). { unfold u64. split; [lra|]. lra. }
  assert (M : Rabs (t + sigma) <= IZR S + 1) by (apply Rabs_le; lra).
  pose proof (rnd64_abs _ _ M) as RE. apply rabs in RE. unfold eps in *. split; apply Rabs_le; lra.
Qed.
Lemma running_err k : (Z.of_nat k <= N)%Z -> Rabs (running sigma k - IZR (Z.of_nat k) * D) <= IZR (Z.of_nat k) * eps.
Proof.
  induction k as [|k IH]; intros H; cbn [running].
  - cbn. replace (0 - 0 * D) with 0 by ring. rewrite Rabs_R0. lra.
  - rewrite Nat2Z.inj_succ, succ_IZR. apply step_err.
    + apply IZR_le. lia.
    + rewrite <- succ_IZR. apply IZR_le. lia.
    + apply IH. lia.
Qed.
Lemma running_range k : (Z.of_nat k <= N)%Z -> 0 <= IZR (Z.of_nat k) * D <= IZR S /\ Rabs (running sigma k - IZR (Z.of_nat k) * D) <= / 6.
Proof.
  intros H. destruct reals as (N1 & S1 & SN & DN & D1). assert (K : 0 <= IZR (Z.of_nat k) <= IZR N) by (split; apply IZR_le; lia).
  split; [|eapply Rle_trans; [now apply running_err|now apply k_eps]]. split; [apply Rmult_le_pos; lra|].
  rewrite <- DN, Rmult_comm. apply Rmult_le_compat_l; lra.
Qed.
Lemma rnd64_nonneg x : 0 <= x -> 0 <= rnd64 x.
Proof. intros H. unfold rnd64. replace 0 with (round radix2 (SpecFloat.fexp 53 1024) (BinarySingleNaN.round_mode BinarySingleNaN.mode_NE) 0) by apply round_0, valid_rnd_N.
  apply round_le; [apply BinarySingleNaN.fexp_correct; reflexivity|apply valid_rnd_N|exact H]. Qed.
Lemma sigma_nonneg : 0 <= sigma.
Proof. destruct reals as (N1 & S1 & SN & DN & D1). apply rnd64_nonneg. lra. Qed.
Lemma running_nonneg k : 0 <= running sigma k.
Proof. induction k as [|k IH]; cbn [running]; [lra|]. apply rnd64_nonneg. pose proof sigma_nonneg. lra. Qed.

Lemma last_bound : bound_at sigma (Z.to_nat N) = S.
Proof.
  destruct reals as (N1 & S1 & SN & DN & D1). destruct (running_range (Z.to_nat N) ltac:(lia)) as (_ & E). rewrite Z2Nat.id in E by lia.
  replace (IZR N * D) with (IZR S) in E by lra. unfold bound_at. apply nearest_exact; [rewrite Rabs_pos_eq; lra|lra].
Qed.
Lemma first_bound : bound_at sigma 0 = 0%Z.
Proof. unfold bound_at. cbn [running]. apply nearest_exact; [rewrite Rabs_R0; lra|]. replace (0 - 0) with 0 by ring. rewrite Rabs_R0. lra. Qed.

(** consecutive boundaries differ by the average block size rounded down or up *)
Lemma step_bound k : (Z.of_nat k < N)%Z -> (S / N <= bound_at sigma (Datatypes.S k) - bound_at sigma k <= (S + N - 1) / N)%Z.
Proof.
  intros H. destruct reals as (N1 & S1 & SN & DN & D1).
  pose proof (Z.div_mod S N ltac:(lia)) as DM. pose proof (Z.mod_pos_bound S N ltac:(lia)) as MB.
  set (q := (S / N)%Z) in *. set (r := (S mod N)%Z) in *.
  destruct (Z.eq_dec r 0) as [R0|R0].
  - (* exact *)
    assert (EQ : D = IZR q). { unfold D. replace S with (N * q)%Z by lia. rewrite mult_IZR. field. lra. }
    assert (Q : (1 <= q <= S)%Z) by nia.
    assert (ES : sigma = IZR q) by (unfold sigma; rewrite EQ; apply IZR_exact; lia).
    assert (RK : forall j, (Z.of_nat j <= N)%Z -> running sigma j = IZR (Z.of_nat j * q)).
    { induction j as [|j IH]; intros Hj; [reflexivity|]. cbn [running]. rewrite IH by lia. rewrite ES, <- plus_IZR.
      replace (Z.of_nat (Datatypes.S j) * q)%Z with (Z.of_nat j * q + q)%Z by lia. apply IZR_exact. nia. }
    assert (BK : forall j, (Z.of_nat j <= N)%Z -> bound_at sigma j = (Z.of_nat j * q)%Z).
    { intros j Hj. unfold bound_at. rewrite RK by exact Hj. apply nearest_exact.
      - rewrite <- abs_IZR. apply IZR_le. nia.
      - replace (IZR (Z.of_nat j * q) - IZR (Z.of_nat j * q)) with 0 by ring. rewrite Rabs_R0. lra. }
    rewrite !BK by lia. replace ((S + N - 1) / N)%Z with q. { lia. }
    apply (Z.div_unique_pos _ _ _ (N - 1)%Z); lia.
  - replace ((S + N - 1) / N)%Z with (q + 1)%Z by (apply (Z.div_unique_pos _ _ _ (r - 1)%Z); lia).
    assert (DQ : IZR q + / IZR N <= D <= IZR q + 1 - / IZR N).
    { assert (DD : D = IZR q + IZR r * / IZR N). { unfold D. replace S with (N * q + r)%Z at 1 by lia. rewrite plus_IZR, mult_IZR. field. lra. }
      assert (I : 0 < / IZR N) by (apply Rinv_0_lt_compat; lra). assert (NI : IZR N * / IZR N = 1) by (apply Rinv_r; lra).
      assert (R1 : 1 <= IZR r) by (apply IZR_le; lia). assert (R2 : IZR r <= IZR N - 1) by (rewrite <- minus_IZR; apply IZR_le; lia).
      rewrite DD. split.
      - apply Rplus_le_compat_l. rewrite <- (Rmult_1_l (/ IZR N)) at 1. apply Rmult_le_compat_r; lra.
      - assert (IZR r * / IZR N <= (IZR N - 1) * / IZR N) by (apply Rmult_le_compat_r; lra). replace ((IZR N - 1) * / IZR N) with (1 - / IZR N) in H0 by (rewrite Rmult_minus_distr_r, NI; ring). lra. }
    unfold bound_at. rewrite !nearest_nonneg by apply running_nonneg. apply floor_diff.
    pose proof (running_range k ltac:(lia)) as (A1 & A2). pose proof (running_range (Datatypes.S k) ltac:(lia)) as (B1 & B2).
    pose proof (running_err k ltac:(lia)) as A3.
    assert (K0 : 0 <= IZR (Z.of_nat k)) by (apply IZR_le; lia). assert (K1 : IZR (Z.of_nat k) + 1 <= IZR N) by (rewrite <- succ_IZR; apply IZR_le; lia).
    destruct (step_err (running sigma k) (IZR (Z.of_nat k)) K0 K1 A3) as (_ & L). change (rnd64 (running sigma k + sigma)) with (running sigma (Datatypes.S k)) in L.
    apply rabs in A2. apply rabs in B2. apply rabs in L.
    assert (MA : Rabs (running sigma k + / 2) <= IZR S + 1) by (apply Rabs_le; lra).
    assert (MB' : Rabs (running sigma (Datatypes.S k) + / 2) <= IZR S + 1) by (apply Rabs_le; lra).
    apply rnd64_abs in MA. apply rnd64_abs in MB'. apply rabs in MA. apply rabs in MB'.
    assert (TOT : 2 * (u64 * (IZR S + 1) + eta64) + eps <= / IZR N).
    { apply Rmult_le_reg_l with (IZR N); [lra|]. rewrite Rinv_r by lra. rewrite Rmult_plus_distr_l. pose proof eps_small as ESM.
      assert (E0 : 0 <= eta64) by (unfold eta64; apply bpow_ge_0). pose proof eta_small as EE.
      replace (IZR N * (2 * (u64 * (IZR S + 1) + eta64))) with (2 * (u64 * (IZR S * IZR N) + u64 * IZR N + IZR N * eta64)) by ring.
      assert (IZR N * eta64 <= 33554432 * / 1000000000000) by (apply Rmult_le_compat; lra). unfold u64 in *. lra. }
    lra.
Qed.

Lemma bound_range k : (Z.of_nat k <= N)%Z -> (0 <= bound_at sigma k < 2 ^ 32)%Z.
Proof.
  intros H. assert (Q : (0 <= S / N)%Z) by (apply Z.div_pos; lia).
  assert (M : forall a b, (a <= b)%nat -> (Z.of_nat b <= N)%Z -> (bound_at sigma a <= bound_at sigma b)%Z).
  { intros a b. induction 1 as [|b L IH]; intros Hb; [lia|]. pose proof (step_bound b ltac:(lia)). specialize (IH ltac:(lia)). lia. }
  pose proof (M 0%nat k ltac:(lia) H) as L. pose proof (M k (Z.to_nat N) ltac:(lia) ltac:(lia)) as U. rewrite first_bound in L. rewrite last_bound in U. lia.
Qed.

Lemma step_float : f64_fin (f64_div (f64_of_Z S) (f64_of_Z N)) = true /\ f64_R (f64_div (f64_of_Z S) (f64_of_Z N)) = sigma.
Proof.
  destruct reals as (N1 & S1 & SN & DN & D1). destruct (of_Z_ok S ltac:(lia)) as (A1 & A2). destruct (of_Z_ok N ltac:(lia)) as (B1 & B2).
  destruct (div_ok (f64_of_Z S) (f64_of_Z N) A1) as (C1 & C2).
  - rewrite B2. lra.
  - rewrite A2, B2. fold D. rewrite Rabs_pos_eq by lra. apply Rle_trans with (bpow radix2 32); [|apply bpow_le; lia]. change (bpow radix2 32) with 4294967296. lra.
  - split; [exact C1|]. rewrite C2, A2, B2. reflexivity.
Qed.
End Drift.

(** The boundaries of a file of [S] points in blocks of at most [T]. *)
Lemma partition_ok T S : (0 < T)%Z -> (0 < S < 2 ^ 32)%Z -> (S * blocks_wanted T S <= 2 ^ 50)%Z ->
  exists part, partition T S = Ok part /\ length part = Datatypes.S (Z.to_nat (blocks_wanted T S)) /\
    nth 0 part 0%Z = 0%Z /\ nth (Z.to_nat (blocks_wanted T S)) part 0%Z = S /\
    forall k, (k < Z.to_nat (blocks_wanted T S))%nat ->
      (S / blocks_wanted T S <= nth (Datatypes.S k) part 0%Z - nth k part 0%Z <= (S + blocks_wanted T S - 1) / blocks_wanted T S)%Z.
Proof.
  intros HT HS HSN. pose proof (blocks_wanted_le T S HT ltac:(lia)) as HN. set (N := blocks_wanted T S) in *.
  destruct (step_float S N HN ltac:(lia) HSN) as (F & ER). set (sigma := rnd64 (IZR S / IZR N)) in *.
  exists (map (bound_at sigma) (seq 0 (Datatypes.S (Z.to_nat N)))).
  assert (NT : forall k, (k <= Z.to_nat N)%nat -> nth k (map (bound_at sigma) (seq 0 (Datatypes.S (Z.to_nat N)))) 0%Z = bound_at sigma k).
  { intros k Hk. rewrite (nth_indep _ 0%Z (bound_at sigma 0)) by (rewrite map_length, seq_length; lia). rewrite map_nth, seq_nth by lia. reflexivity. }
  split.
  - unfold partition. rewrite (num_partitions_ok T S HT ltac:(lia)). cbn [obind]. fold N.
    pose proof (reals S N HN ltac:(lia) HSN) as (N1 & S1 & SN & DN & D1). pose proof (sigma_err S N HN ltac:(lia) HSN) as SE. fold sigma in SE.
    pose proof eta_small as EE. apply rabs in SE.
    rewrite (boundaries_trace _ (Z.to_nat N) F) with (k := 0%nat) (total := f64_zero).
    + rewrite ER. cbn [obind seq map]. rewrite (first_bound S N : bound_at sigma 0 = 0%Z). reflexivity.
    + rewrite ER. split; [apply (sigma_nonneg S N HN ltac:(lia) HSN)|]. unfold u64 in SE. lra.
    + intros k Hk. rewrite ER. pose proof (running_range S N HN ltac:(lia) HSN k ltac:(lia)) as (A & B). fold sigma in B. apply rabs in B.
      split; [|now apply (bound_range S N HN ltac:(lia) HSN); lia]. split; [apply (running_nonneg S N HN ltac:(lia) HSN)|lra].
    + lia.
    + reflexivity.
    + reflexivity.
  - split; [rewrite map_length, seq_length; reflexivity|]. split; [rewrite NT by lia; apply first_bound|].
    split; [rewrite NT by lia; now apply (last_bound S N HN ltac:(lia) HSN)|].
    intros k Hk. rewrite !NT by lia. now apply (step_bound S N HN ltac:(lia) HSN); lia.
Qed.

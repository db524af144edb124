(** Huge files: the running total of Partition() drifts away and the last
    boundary is not the number of points. *)
From Coq Require Import ZArith Reals List Bool Lia Lra.
Import ListNotations.
From Flocq Require Import Core.
From Verif Require Import Outcome Bytes Float64 Float64_Proofs Bounds_Proofs Coord_Api Coord_Proofs Header_Model Cached_Model Cached_Proofs Chipper_Model Chipper_Spec Chipper_Lists Chipper_Run Chipper_Partition.
Local Open Scope R_scope.
Local Notation length := List.length (only parsing).

Definition p22 : R := / 4194304.
Definition p20 : R := / 1048576.
Lemma p22_bpow : p22 = bpow radix2 (-22). Proof. reflexivity. Qed.
Lemma rnd64_22 m : (Z.abs m <= 2 ^ 53)%Z -> rnd64 (IZR m * p22) = IZR m * p22.
Proof.
  intros H. unfold rnd64. apply round_generic; [apply valid_rnd_N|]. rewrite p22_bpow.
  change (SpecFloat.fexp 53 1024) with (FLT_exp (3 - 1024 - 53) 53).
  destruct (Z.eq_dec (Z.abs m) (2 ^ 53)) as [E|NE].
  - assert (E' : IZR m * bpow radix2 (-22) = bpow radix2 31 \/ IZR m * bpow radix2 (-22) = - bpow radix2 31).
    { assert (m = 2 ^ 53 \/ m = - 2 ^ 53)%Z as [->| ->] by lia; [left|right].
      - change (IZR (2 ^ 53)) with (bpow radix2 53). rewrite <- bpow_plus. reflexivity.
      - rewrite opp_IZR. change (IZR (2 ^ 53)) with (bpow radix2 53). rewrite Ropp_mult_distr_l_reverse, <- bpow_plus. reflexivity. }
    destruct E' as [->| ->]; [|apply generic_format_opp]; apply generic_format_bpow; vm_compute; discriminate.
  - apply generic_format_FLT. exists (Float radix2 m (-22)); cbn [Fnum Fexp]; [reflexivity| |lia]. change (radix2 ^ 53)%Z with (2 ^ 53)%Z. lia.
Qed.

(** a total at an even multiple of the spacing, plus half a spacing, is rounded back *)
Lemma tie_down m : (2 ^ 51 <= m < 2 ^ 52)%Z -> rnd64 (IZR m * p20 + p22) = IZR m * p20.
Proof.
  intros H. set (x := IZR m * p20 + p22).
  assert (B : IZR (2 ^ 51) <= IZR m <= IZR (2 ^ 52 - 1)) by (split; apply IZR_le; lia).
  change (IZR (2 ^ 51)) with 2251799813685248 in B. change (IZR (2 ^ 52 - 1)) with 4503599627370495 in B.
  assert (MX : mag radix2 x = 32%Z :> Z).
  { apply mag_unique_pos. change (bpow radix2 (32 - 1)) with 2147483648. change (bpow radix2 32) with 4294967296. unfold x, p20, p22. lra. }
  unfold rnd64, round, scaled_mantissa, cexp. rewrite MX. change (SpecFloat.fexp 53 1024 32) with (-21)%Z.
  change (bpow radix2 (- -21)) with 2097152.
  assert (SM : x * 2097152 = IZR (2 * m) + / 2) by (unfold x, p20, p22; rewrite mult_IZR; lra). rewrite SM.
  replace (BinarySingleNaN.round_mode BinarySingleNaN.mode_NE (IZR (2 * m) + / 2)) with (2 * m)%Z.
  - unfold F2R. cbn [Fnum Fexp]. change (bpow radix2 (-21)) with (/ 2097152). rewrite mult_IZR. unfold p20. lra.
  - cbn [BinarySingleNaN.round_mode]. unfold Znearest. rewrite (Zfloor_imp (2 * m)) by (rewrite plus_IZR; lra).
    replace (IZR (2 * m) + / 2 - IZR (2 * m)) with (/ 2) by ring. rewrite Rcompare_Eq by reflexivity. rewrite Z.even_mul. reflexivity.
Qed.

Section Huge.
Variables S N : Z.
Hypothesis ES : S = 4294967290%Z.
Hypothesis EN : N = 8388608%Z.
Let sigma : R := IZR 2147483645 * p22.
Lemma huge_step : f64_fin (f64_div (f64_of_Z S) (f64_of_Z N)) = true /\ f64_R (f64_div (f64_of_Z S) (f64_of_Z N)) = sigma.
Proof.
  destruct (of_Z_ok S ltac:(lia)) as (A1 & A2). destruct (of_Z_ok N ltac:(lia)) as (B1 & B2).
  assert (Q : IZR S / IZR N = sigma). { rewrite ES, EN. unfold sigma, p22. lra. }
  destruct (div_ok (f64_of_Z S) (f64_of_Z N) A1) as (C1 & C2).
  - rewrite B2, EN. lra.
  - rewrite A2, B2, Q. unfold sigma, p22. rewrite Rabs_pos_eq by lra. apply Rle_trans with (bpow radix2 32); [|apply bpow_le; lia]. change (bpow radix2 32) with 4294967296. lra.
  - split; [exact C1|]. rewrite C2, A2, B2, Q. apply rnd64_22. lia.
Qed.
Lemma huge_low k : (Z.of_nat k <= 4194304)%Z -> running sigma k = IZR (Z.of_nat k) * sigma.
Proof.
  induction k as [|k IH]; intros H; cbn [running]; [cbn; ring|]. rewrite IH by lia.
  replace (IZR (Z.of_nat k) * sigma + sigma) with (IZR ((Z.of_nat k + 1) * 2147483645) * p22).
  - rewrite rnd64_22 by lia. rewrite mult_IZR. unfold sigma. rewrite Nat2Z.inj_succ. unfold Z.succ. ring.
  - rewrite mult_IZR, plus_IZR. unfold sigma. ring.
Qed.
Lemma huge_high k : (4194304 <= Z.of_nat k <= N)%Z ->
  running sigma k = 2147483645 + IZR (Z.of_nat k - 4194304) * (512 - p20).
Proof.
  induction k as [|k IH]; intros H; [lia|]. destruct (Z.eq_dec (Z.of_nat (Datatypes.S k)) 4194304) as [E|NE].
  - rewrite huge_low by lia. rewrite E. unfold sigma, p22. replace (4194304 - 4194304)%Z with 0%Z by lia. lra.
  - cbn [running]. rewrite IH by lia. set (j := (Z.of_nat k - 4194304)%Z).
    replace (Z.of_nat (Datatypes.S k) - 4194304)%Z with (j + 1)%Z by (unfold j; lia).
    replace (2147483645 + IZR j * (512 - p20) + sigma) with (IZR (2147483645 * 1048576 + (j + 1) * 536870911) * p20 + p22).
    + rewrite tie_down by (unfold j; lia). rewrite plus_IZR, !mult_IZR, plus_IZR. unfold p20. lra.
    + rewrite plus_IZR, !mult_IZR, plus_IZR. unfold sigma, p22, p20. lra.
Qed.
Lemma huge_diff k : (Z.of_nat k < N)%Z -> 2 <= running sigma (Datatypes.S k) - running sigma k.
Proof.
  intros H. destruct (Z.lt_ge_cases (Z.of_nat k) 4194304) as [L|L].
  - rewrite !huge_low by lia. rewrite Nat2Z.inj_succ, succ_IZR. unfold sigma, p22. lra.
  - rewrite !huge_high by lia. rewrite Nat2Z.inj_succ. replace (Z.succ (Z.of_nat k) - 4194304)%Z with (Z.of_nat k - 4194304 + 1)%Z by lia.
    rewrite plus_IZR. unfold p20. lra.
Qed.
Lemma huge_range k : (Z.of_nat k <= N)%Z -> 0 <= running sigma k <= 4294967289.
Proof.
  intros H. destruct (Z.lt_ge_cases (Z.of_nat k) 4194304) as [L|L].
  - rewrite huge_low by lia. assert (B : 0 <= IZR (Z.of_nat k) <= 4194304) by (split; apply IZR_le; lia). unfold sigma, p22. lra.
  - rewrite huge_high by lia. assert (B : 0 <= IZR (Z.of_nat k - 4194304) <= 4194304) by (split; apply IZR_le; lia). unfold p20. lra.
Qed.
Lemma huge_bound k : (Z.of_nat k <= N)%Z -> (0 <= bound_at sigma k < 2 ^ 32)%Z.
Proof.
  intros H. pose proof (huge_range k H) as R. pose proof (nearest_err (running sigma k) ltac:(apply Rabs_le; lra)) as E. apply rabs in E. fold (bound_at sigma k) in E.
  assert (-1 < IZR (bound_at sigma k) < 4294967296) as (A & B) by lra. apply lt_IZR in A. apply lt_IZR in B. lia.
Qed.
Lemma huge_mono k : (Z.of_nat k < N)%Z -> (bound_at sigma k < bound_at sigma (Datatypes.S k))%Z.
Proof.
  intros H. pose proof (huge_range k ltac:(lia)) as R. pose proof (huge_range (Datatypes.S k) ltac:(lia)) as R'. pose proof (huge_diff k H) as DF.
  pose proof (nearest_err (running sigma k) ltac:(apply Rabs_le; lra)) as E. pose proof (nearest_err (running sigma (Datatypes.S k)) ltac:(apply Rabs_le; lra)) as E'.
  apply rabs in E. apply rabs in E'. fold (bound_at sigma k) in E. fold (bound_at sigma (Datatypes.S k)) in E'. apply lt_IZR. lra.
Qed.
Lemma huge_last k : Z.of_nat k = N -> bound_at sigma k = (S - 1)%Z.
Proof.
  intros H. unfold bound_at. apply nearest_exact; rewrite ES.
  - change (4294967290 - 1)%Z with 4294967289%Z. rewrite Rabs_pos_eq; lra.
  - rewrite huge_high by lia. rewrite H, EN. change (8388608 - 4194304)%Z with 4194304%Z. change (4294967290 - 1)%Z with 4294967289%Z. unfold p20. apply Rabs_le. lra.
Qed.
Lemma huge_first : bound_at sigma 0 = 0%Z.
Proof. unfold bound_at. cbn [running]. apply nearest_exact; [rewrite Rabs_R0; lra|]. replace (0 - 0) with 0 by ring. rewrite Rabs_R0. lra. Qed.

Lemma huge_partition : exists part, partition 512 S = Ok part /\ length part = Datatypes.S (Z.to_nat N) /\
  nth 0 part 0%Z = 0%Z /\ nth (Z.to_nat N) part 0%Z = (S - 1)%Z /\
  (forall k, (k <= Z.to_nat N)%nat -> (0 <= nth k part 0 < 2 ^ 32)%Z) /\
  forall k, (k < Z.to_nat N)%nat -> (nth k part 0 < nth (Datatypes.S k) part 0)%Z.
Proof.
  destruct huge_step as (F & ER).
  exists (map (bound_at sigma) (seq 0 (Datatypes.S (Z.to_nat N)))).
  assert (NT : forall k, (k <= Z.to_nat N)%nat -> nth k (map (bound_at sigma) (seq 0 (Datatypes.S (Z.to_nat N)))) 0%Z = bound_at sigma k).
  { intros k Hk. rewrite (nth_indep _ 0%Z (bound_at sigma 0)) by (rewrite map_length, seq_length; lia). rewrite map_nth, seq_nth by lia. reflexivity. }
  split.
  - unfold partition. rewrite (num_partitions_ok 512 S) by lia. cbn [obind].
    replace (blocks_wanted 512 S) with N by (rewrite ES, EN; reflexivity).
    rewrite (boundaries_trace _ (Z.to_nat N) F) with (k := 0%nat) (total := f64_zero).
    + rewrite ER. cbn [obind seq map]. rewrite huge_first. reflexivity.
    + rewrite ER. unfold sigma, p22. lra.
    + intros k Hk. rewrite ER. split; [|apply huge_bound; lia]. pose proof (huge_range k ltac:(lia)). lra.
    + lia.
    + reflexivity.
    + reflexivity.
  - split; [rewrite map_length, seq_length; reflexivity|]. split; [rewrite NT by lia; apply huge_first|].
    split; [rewrite NT by lia; apply huge_last; lia|]. split.
    + intros k Hk. rewrite NT by lia. apply huge_bound. lia.
    + intros k Hk. rewrite !NT by lia. apply huge_mono. lia.
Qed.
End Huge.

(** ** The blocks of a run always have as many points as the last boundary says *)
Local Open Scope Z_scope.
Definition widths (bs : list block) : Z := fold_right (fun b a => b_right b + 1 - b_left b + a) 0 bs.
Lemma widths_app a b : widths (a ++ b) = widths a + widths b.
Proof. induction a as [|x a IH]; cbn [app widths fold_right]; [reflexivity|]. unfold widths in IH. rewrite IH. unfold widths. lia. Qed.
Lemma seen_total c bs : Forall (fun b => b_left b <= b_right b) bs -> forall seen, blocks_seen c bs = Ok seen -> lenZ (concat (map cb_ids seen)) = widths bs.
Proof.
  induction 1 as [|b bs R F IH]; intros seen E; cbn [blocks_seen] in E; [injection E as <-; reflexivity|].
  apply obind_ok in E. destruct E as (ids & E1 & E). apply obind_ok in E. destruct E as (rest & E2 & E). injection E as <-.
  cbn [map concat cb_ids]. rewrite app_length, Nat2Z.inj_add, (IH rest E2). cbn [widths fold_right]. f_equal.
  unfold block_ids, vrange in E1. destruct (Z.ltb_spec (b_right b) (b_left b)); [lia|].
  destruct (Z.leb_spec 0 (b_left b)); cbn [andb] in E1; [|discriminate]. destruct (Z.ltb_spec (b_right b) (lenZ (vec c (b_list b)))); [|discriminate].
  cbn [obind] in E1. injection E1 as <-. rewrite map_length, firstn_length, skipn_length. lia.
Qed.

Section Total.
Variable srt : sorter.
Variable use_sort : bool.
Variable part : list Z.
Hypothesis part_mono : forall p q, 0 <= p < q -> q < lenZ part -> P part p < P part q.
Hypothesis part_range : forall p, 0 <= p < lenZ part -> 0 <= P part p < 2 ^ 32.
Hypothesis part_len : lenZ part <= 2 ^ 31.
Let Pp := P part.
Definition adds (c c' : chip) (w : Z) : Prop := exists bs, c_blocks c' = c_blocks c ++ bs /\ widths bs = w /\ Forall (fun b => b_left b <= b_right b) bs.
Lemma adds_trans c1 c2 c3 a b w : adds c1 c2 a -> adds c2 c3 b -> a + b = w -> adds c1 c3 w.
Proof.
  intros (x & X1 & X2 & X3) (y & Y1 & Y2 & Y3) E. exists (x ++ y). rewrite Y1, X1, app_assoc, widths_app. split; [reflexivity|]. split; [lia|]. apply Forall_app; auto.
Qed.
Lemma emit_adds c wide a b narrow i1 i2 c' : emit c wide a b narrow i1 i2 = Ok c' -> a <= b -> adds c c' (b + 1 - a).
Proof.
  unfold emit. intros E H. do 4 (apply obind_ok in E; destruct E as (? & _ & E)). injection E as <-.
  eexists. split; [reflexivity|]. split; [cbn [widths fold_right]; destruct (dirof c wide); cbn; lia|]. constructor; [|constructor]. destruct (dirof c wide); cbn; lia.
Qed.
Lemma adds_blocks c c1 c' w : adds c1 c' w -> c_blocks c1 = c_blocks c -> adds c c' w.
Proof. intros (bs & E & H) EB. exists bs. rewrite <- EB. auto. Qed.
Lemma rearrange_blocks c wide narrow spare lo center hi c' : rearrange_narrow srt use_sort c wide narrow spare lo center hi = Ok c' -> c_blocks c' = c_blocks c.
Proof.
  unfold rearrange_narrow. destruct use_sort; intros E.
  - do 3 (apply obind_ok in E; destruct E as (? & _ & E)). injection E as <-. now destruct narrow, wide.
  - apply obind_ok in E. destruct E as (? & _ & E). apply obind_ok in E. destruct E as ((s, w) & _ & E). injection E as <-. now destruct spare, wide.
Qed.
Lemma decide_total : forall fuel c v1 v2 spare pl pr c', 0 <= pl < pr -> pr < lenZ part ->
  decide_split srt use_sort part fuel c v1 v2 spare pl pr = Ok c' -> adds c c' (Pp pr - Pp pl).
Proof.
  induction fuel as [|k IH]; intros c v1 v2 spare pl pr c' Hp Hpr E; [discriminate|]. cbn [decide_split] in E.
  assert (PG : forall p, 0 <= p < lenZ part -> vget part p = Ok (Pp p)) by (intros; now apply vget_ok).
  rewrite !PG in E by lia. cbn [obind] in E.
  do 4 (apply obind_ok in E; destruct E as (? & _ & E)).
  assert (SP : forall wide narrow, split srt use_sort part (decide_split srt use_sort part k) c wide narrow spare pl pr = Ok c' -> adds c c' (Pp pr - Pp pl)).
  { clear E. intros wide narrow E. unfold split in E. rewrite !PG in E by lia. cbn [obind] in E.
    pose proof (part_mono pl pr Hp Hpr) as M. pose proof (part_range pl ltac:(lia)) as R1. pose proof (part_range pr ltac:(lia)) as R2. fold Pp in M, R1, R2.
    rewrite (u32_id (Pp pr - 1)), (u32_id (pr - pl)) in E by lia.
    destruct (Z.eqb_spec (pr - pl) 1) as [E1|E1].
    { apply emit_adds in E; [|lia]. replace (Pp pr - 1 + 1 - Pp pl) with (Pp pr - Pp pl) in E by lia. exact E. }
    destruct (Z.eqb_spec (pr - pl) 2) as [E2|E2].
    { assert (pr = pl + 2) as -> by lia. unfold final_split in E. rewrite !PG in E by (rewrite ?u32_id by lia; lia). cbn [obind] in E.
      rewrite (u32_id (Pp (pl + 2) - 1)), (u32_id (pl + 2 - 1)) in E by lia. replace (pl + 2 - 1) with (pl + 1) in E by lia.
      pose proof (part_mono pl (pl + 1) ltac:(lia) ltac:(lia)) as Ma. pose proof (part_mono (pl + 1) (pl + 2) ltac:(lia) ltac:(lia)) as Mb. fold Pp in Ma, Mb.
      apply obind_ok in E. destruct E as (mid & _ & E). destruct (find_left mid _ _ _ _) as (l1, l2). destruct (find_right _ _ _ _ _) as (r1, r2).
      apply obind_ok in E. destruct E as (c1 & Ea & Eb). rewrite (u32_id (Pp (pl + 1) - 1)) in Ea by lia.
      apply emit_adds in Ea; [|lia]. apply emit_adds in Eb; [|lia]. eapply adds_trans; [exact Ea|exact Eb|lia]. }
    rewrite (u32_id (pl + pr)) in E by lia. set (pc := (pl + pr) / 2) in *.
    assert (HC : pl < pc < pr) by (unfold pc; pose proof (Z.div_mod (pl + pr) 2 ltac:(lia)); pose proof (Z.mod_pos_bound (pl + pr) 2 ltac:(lia)); lia).
    rewrite PG in E by lia. cbn [obind] in E. apply obind_ok in E. destruct E as (c1 & ER & E). apply rearrange_blocks in ER.
    apply obind_ok in E. destruct E as (c4 & E & E'). injection E' as <-.
    assert (A : adds c c4 (Pp pr - Pp pl)).
    { destruct use_sort.
      all: apply obind_ok in E; destruct E as (c3 & E3 & E4); apply IH in E3; [|lia|lia]; apply IH in E4; [|lia|lia].
      all: eapply adds_trans; [eapply adds_blocks; [exact E3|]|exact E4|lia]; destruct spare; exact ER. }
    destruct A as (bs & A1 & A2). exists bs. split; [|exact A2]. rewrite <- A1. now destruct narrow. }
  destruct (f64_gt _ _); eapply SP; exact E.
Qed.
End Total.

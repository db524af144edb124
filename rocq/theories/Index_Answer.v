(** The answer of a box query over a built index. *)
From Coq Require Import ZArith Reals List Bool Lia Lra.
From Coq Require Import ZifyBool ZifyNat.
From Flocq Require Import Core.
Import ListNotations.
From Verif Require Import Outcome Bytes CStr Float64 Float64_Proofs Vlr_Model Bounds_Model Bounds_Proofs Coord_Api Coord_Proofs Chipper_Spec Chipper_Lists Index_Cell Index_Temp Index_Scan Index_Out Index_Query Index_Spec Index_Items Index_Groups Index_Filter Index_Load Index_Axis Index_Build Index_Grid Index_QuerySpec Index_Size Index_Divide Index_Cells.
Local Open Scope R_scope.
Local Notation length := List.length (only parsing).

Lemma margin_slack r : margin r = slack (rg_min r) (rg_max r).
Proof. unfold margin, slack, u64. replace (bpow radix2 (-48)) with (/ 281474976710656) by reflexivity. lra. Qed.

(** ** One axis *)
Lemma clip_in b r : touches b r -> f64_fin (rg_min r) = true -> f64_fin (rg_max r) = true -> f64_R (rg_min r) <= f64_R (rg_max r) ->
  within r (rg_min (range_clip b r)) /\ within r (rg_max (range_clip b r)) /\
  f64_R (rg_min (range_clip b r)) = Rmax (f64_R (rg_min b)) (f64_R (rg_min r)) /\ f64_R (rg_max (range_clip b r)) = Rmin (f64_R (rg_max b)) (f64_R (rg_max r)).
Proof.
  intros (F1 & F2 & O1 & O2 & O3) G1 G2 OR. unfold within, range_clip, f64_gt. cbn [rg_min rg_max].
  destruct (fcase_lt (rg_min b) (rg_min r) F1 G1) as [(E1 & L1)|(E1 & L1)]; rewrite E1; destruct (fcase_lt (rg_max r) (rg_max b) G2 F2) as [(E2 & L2)|(E2 & L2)]; rewrite E2;
  unfold Rmax, Rmin; destruct (Rle_dec _ _), (Rle_dec _ _); repeat split; try assumption; lra.
Qed.

Definition good_axis (b r : range) (n : Z) (off : bool) (cs : f64) (a : axis) : Prop :=
  forall k v, (0 <= k < n)%Z -> within r v -> near (rg_min r) (rg_max r) n k v ->
  (surely_in b r v -> in_border a k = true /\ axis_accepts a k v = true /\ half_good a k (negb (upper (rg_min r) cs k v)) = true) /\
  (axis_accepts a k v = true -> off = false -> maybe_in b r v).

Lemma axis_wide b r n off : wide r -> (1 <= n <= 1048576)%Z -> touches b r ->
  let c := range_clip b r in let rg := f64_sub (rg_max r) (rg_min r) in
  exists a, axis_cells (axis_of c off) (cell_pos n (rg_min r) rg (rg_min c)) (cell_pos n (rg_min r) rg (rg_max c)) = Ok a /\ ax_r a = c /\ ax_off a = off /\
    good_axis b r n off (f64_div rg (f64_of_Z n)) a.
Proof.
  intros W Hn T c rg. pose proof (wide_fine r n W Hn) as AF. destruct (clip_in b r T (w_min _ W) (w_max _ W) (Rlt_le _ _ (w_lt _ W))) as (C1 & C2 & C3 & C4). fold c in C1, C2, C3, C4.
  destruct (cell_pos_ok _ _ _ AF _ C1) as (P1 & P2). destruct (cell_pos_ok _ _ _ AF _ C2) as (P3 & P4).
  pose proof (pos_small _ _ _ AF _ (proj2 C1)) as B1. pose proof (pos_small _ _ _ AF _ (proj2 C2)) as B2.
  destruct (axis_cells_ok 1 (axis_of c off) _ _ P1 P3 ltac:(rewrite P2; exact B1) ltac:(rewrite P4; exact B2)) as (a & EA & CA).
  exists a. split; [exact EA|]. pose proof CA as (R1 & R2 & _). cbn [axis_of ax_r ax_off] in R1, R2. split; [exact R1|]. split; [exact R2|].
  intros k v Hk Hv Nv. rewrite P2, P4 in CA. pose proof (w_lt _ W) as WL.
  assert (C1' : on_axis (rg_min r) (rg_max r) (rg_min (ax_r a))) by (rewrite R1; exact C1). assert (C2' : on_axis (rg_min r) (rg_max r) (rg_max (ax_r a))) by (rewrite R1; exact C2).
  assert (SP : 0 < slack (rg_min r) (rg_max r)) by (apply (slack_pos _ _ _ AF)).
  split.
  - intros (S1 & S2). rewrite margin_slack in S1, S2.
    apply (verdict_complete _ _ _ AF a k v _ _ C1' C2' eq_refl eq_refl Hk Hv Nv); rewrite R1; [exists (axis_of c off); exact CA| |].
    + rewrite C3. unfold Rmax. destruct (Rle_dec _ _); lra.
    + rewrite C4. unfold Rmin. destruct (Rle_dec _ _); lra.
  - intros A O. assert (AO : ax_off a = false) by congruence.
    pose proof (verdict_sound _ _ _ AF a k v _ _ C1' C2' eq_refl eq_refl Hv Nv) as V. rewrite R1 in V. specialize (V ltac:(exists (axis_of c off); exact CA) AO A).
    unfold maybe_in. rewrite margin_slack. rewrite C3, C4 in V. unfold Rmax, Rmin in V. destruct (Rle_dec _ _), (Rle_dec _ _); lra.
Qed.

Lemma rnd_small_pow x : 0 <= x <= bpow radix2 (-500) -> rnd64 x <= bpow radix2 (-500).
Proof.
  intros H. apply rnd_le; [|lra]. unfold rnd64. apply round_generic; [apply valid_rnd_N|]. apply generic_format_bpow. vm_compute. discriminate.
Qed.

(** the z axis, which is one cell *)
Lemma axis_flat b r off : flat r -> touches b r ->
  let c := range_clip b r in let rg := f64_sub (rg_max r) (rg_min r) in
  exists a, (if f64_gt rg f64_zero && negb (compare_distance rg f64_zero)
             then axis_cells (axis_of c off) (cell_pos 1 (rg_min r) rg (rg_min c)) (cell_pos 1 (rg_min r) rg (rg_max c))
             else axis_cells (axis_of c off) f64_zero f64_zero) = Ok a /\ ax_r a = c /\ ax_off a = off /\
    forall v, within r v -> (surely_in b r v -> axis_accepts a 0 v = true) /\ (axis_accepts a 0 v = true -> off = false -> maybe_in b r v).
Proof.
  intros [G1 G2 OR (BG1 & BG2)] T c rg. destruct (clip_in b r T G1 G2 OR) as (C1 & C2 & C3 & C4). fold c in C1, C2, C3, C4.
  assert (SP : 0 <= margin r) by (unfold margin; apply Rmult_le_pos; [apply bpow_ge_0|pose proof (Rabs_pos (f64_R (rg_min r))); pose proof (Rabs_pos (f64_R (rg_max r))); lra]).
  destruct (f64_gt rg f64_zero && negb (compare_distance rg f64_zero))%bool eqn:E.
  - assert (RB : Rabs (f64_R (rg_max r) - f64_R (rg_min r)) <= bpow radix2 501).
    { replace (bpow radix2 501) with (bpow radix2 500 + bpow radix2 500) by (change 501%Z with (1 + 500)%Z; rewrite bpow_plus; change (bpow radix2 1) with 2; ring).
      eapply Rle_trans; [apply Rabs_triang|]. rewrite Rabs_Ropp. lra. }
    destruct (sub_ok (rg_max r) (rg_min r) G2 G1) as (S1 & S2). { eapply Rle_trans; [exact RB|]. apply bpow_le. lia. }
    fold rg in S1, S2. destruct f64_zero_R as (Z1 & Z2). apply andb_prop in E. destruct E as (E1 & E2).
    assert (RG : bpow radix2 (-52) < f64_R rg).
    { destruct (Rlt_or_le (bpow radix2 (-52)) (f64_R rg)) as [L|L]; [exact L|exfalso]. unfold f64_gt in E1. apply f64_lt_R in E1; auto. rewrite Z2 in E1.
      destruct f64_epsilon_R as (EF & ER). unfold compare_distance in E2.
      destruct (sub_ok rg f64_zero S1 Z1) as (D1 & D2). { rewrite Z2, Rminus_0_r, Rabs_pos_eq by lra. eapply Rle_trans; [exact L|]. apply bpow_le. lia. }
      rewrite Z2, Rminus_0_r, rnd_f64 in D2 by exact S1.
      assert (X1 : f64_le (f64_sub rg f64_zero) f64_epsilon = true) by (apply f64_le_R; auto; rewrite D2, ER; exact L).
      assert (X2 : f64_ge (f64_sub rg f64_zero) (f64_opp f64_epsilon) = true). { unfold f64_ge. apply f64_le_R; [now rewrite f64_opp_fin|exact D1|]. rewrite f64_opp_R, D2, ER. pose proof (bpow_ge_0 radix2 (-52)). lra. }
      rewrite X1, X2 in E2. discriminate. }
    assert (W : wide r).
    { constructor; auto.
      - destruct (Rle_lt_or_eq_dec _ _ OR) as [L|L]; [exact L|exfalso]. rewrite S2, L, Rminus_diag_eq, rnd_0 in RG by reflexivity. pose proof (bpow_ge_0 radix2 (-52)). lra.
      - destruct (Rle_or_lt (bpow radix2 (-500)) (f64_R (rg_max r) - f64_R (rg_min r))) as [L|L]; [exact L|exfalso]. rewrite S2 in RG. assert (X := rnd_small_pow (f64_R (rg_max r) - f64_R (rg_min r)) ltac:(lra)).
        assert (bpow radix2 (-500) <= bpow radix2 (-52)) by (apply bpow_le; lia). lra. }
    destruct (axis_wide b r 1 off W ltac:(lia) T) as (a & EA & A1 & A2 & A3). exists a. split; [exact EA|]. split; [exact A1|]. split; [exact A2|]. intros v Hv.
    assert (N0 : near (rg_min r) (rg_max r) 1 0 v).
    { unfold near. pose proof (g_frac _ _ _ (wide_fine r 1 W ltac:(lia)) _ (proj2 Hv)) as FR. pose proof u64_val. lra. }
    destruct (A3 0%Z v ltac:(lia) Hv N0) as (X & Y). split; [|exact Y]. intros S. now destruct (X S) as (_ & X2 & _).
  - destruct f64_zero_R as (Z1 & Z2). destruct (axis_cells_ok 1 (axis_of c off) f64_zero f64_zero Z1 Z1 ltac:(rewrite Z2; lra) ltac:(rewrite Z2; lra)) as (a & EA & R1 & R2 & E1 & E2 & E3 & E4 & _).
    exists a. split; [exact EA|]. cbn [axis_of ax_r ax_off] in R1, R2. split; [exact R1|]. split; [exact R2|]. intros v (Fv & Hv).
    rewrite Z2 in E1, E2, E3, E4. rewrite (Zfloor_IZR 0) in E2, E3. rewrite (Zceil_IZR 0) in E1, E4. unfold axis_accepts. rewrite R1, R2, E1, E2, E3, E4. cbn [Z.leb Z.eqb Z.sub andb orb].
    change ((0 <=? 0)%Z && (0 <=? 0 - 1)%Z)%bool with false. rewrite orb_false_r.
    destruct C1 as (FC1 & C1), C2 as (FC2 & C2). unfold between, f64_ge. split.
    + intros (S1 & S2). destruct off; [reflexivity|]. cbn [orb]. apply andb_true_intro. split; apply f64_le_R; auto.
      * rewrite C3. unfold Rmax. destruct (Rle_dec _ _); lra.
      * rewrite C4. unfold Rmin. destruct (Rle_dec _ _); lra.
    + intros A ->. cbn [orb] in A. apply andb_prop in A. destruct A as (A1 & A2). apply f64_le_R in A1; auto. apply f64_le_R in A2; auto. rewrite C3 in A1. rewrite C4 in A2. unfold maybe_in.
      unfold Rmax in A1. unfold Rmin in A2. destruct (Rle_dec _ _), (Rle_dec _ _); lra.
Qed.

Lemma filters_on b r : touches b r -> f64_fin (rg_min r) = true -> f64_fin (rg_max r) = true -> f64_R (rg_min r) <= f64_R (rg_max r) ->
  Rabs (f64_R (rg_min r)) <= bpow radix2 500 /\ Rabs (f64_R (rg_max r)) <= bpow radix2 500 -> filters b r -> enabler (range_clip b r) false = false.
Proof.
  intros T G1 G2 OR (B1 & B2) F. destruct (clip_in b r T G1 G2 OR) as ((FC1 & C1) & (FC2 & C2) & C3 & C4). unfold filters in F. rewrite <- C3, <- C4 in F. unfold enabler, compare_distance.
  set (c := range_clip b r) in *. apply Rabs_le_inv in B1, B2.
  destruct (sub_ok (rg_min c) (rg_max c) FC1 FC2) as (S1 & S2). { apply Rle_trans with (bpow radix2 501); [|apply bpow_le; lia]. replace (bpow radix2 501) with (bpow radix2 500 + bpow radix2 500) by (change 501%Z with (1 + 500)%Z; rewrite bpow_plus; change (bpow radix2 1) with 2; ring). apply Rabs_le. lra. }
  destruct f64_epsilon_R as (EF & ER). assert (FO : f64_fin (f64_opp f64_epsilon) = true) by now rewrite f64_opp_fin.
  assert (K : f64_R (f64_sub (rg_min c) (rg_max c)) <= - bpow radix2 (-51)).
  { rewrite S2. apply rnd_le; [|lra]. unfold rnd64. apply round_generic; [apply valid_rnd_N|]. apply generic_format_opp, generic_format_bpow. vm_compute. discriminate. }
  replace (f64_ge (f64_sub (rg_min c) (rg_max c)) (f64_opp f64_epsilon)) with false; [now rewrite andb_false_r|]. symmetry. unfold f64_ge. destruct (fcase_le (f64_opp f64_epsilon) (f64_sub (rg_min c) (rg_max c)) FO S1) as [(E & L)|(E & _)]; [|exact E].
  rewrite f64_opp_R, ER in L. exfalso. assert (bpow radix2 (-52) < bpow radix2 (-51)) by (apply bpow_lt; lia). lra.
Qed.

(** ** The bounds of the query and of the index *)
Lemma meet_some (a b : list range) : List.length a = List.length b -> exists m, bounds_intersects a b = Ok m.
Proof. revert b. induction a as [|r a IH]; intros [|s b] H; cbn in H; try discriminate; cbn [bounds_intersects]; [eauto|]. destruct (range_overlaps r s); [eauto|]. apply IH. lia. Qed.
Lemma meet_sure b r v rest rest' : wide r -> touches b r -> within r v -> surely_in b r v -> bounds_intersects (r :: rest) (range_clip b r :: rest') = Ok true.
Proof.
  intros W T (Fv & Hv) (S1 & S2). cbn [bounds_intersects]. destruct (clip_in b r T (w_min _ W) (w_max _ W) (Rlt_le _ _ (w_lt _ W))) as ((FC1 & C1) & (FC2 & C2) & C3 & C4). pose proof (w_lt _ W) as WL. pose proof (w_min _ W) as W1. pose proof (w_max _ W) as W2.
  assert (SP : 0 < margin r) by (rewrite margin_slack; apply (slack_pos _ _ _ (wide_fine r 1 W ltac:(lia)))).
  unfold range_overlaps, f64_gt. replace (f64_lt (rg_min r) (rg_max (range_clip b r))) with true; [replace (f64_lt (rg_min (range_clip b r)) (rg_max r)) with true; [reflexivity|]|]; symmetry; apply f64_lt_R; auto.
  - rewrite C3. unfold Rmax. destruct (Rle_dec _ _); lra.
  - rewrite C4. unfold Rmin. destruct (Rle_dec _ _); lra.
Qed.

(** a query whose bounds miss those of the index *)
Lemma filter_apart pts base h cells ix q q' cur : forallb not_index base = true -> ih_data (ix_h ix) = 43%Z -> ihead_ok h -> Forall fits32 cells ->
  set_cell_bounds (idx_of h) q = Ok q' -> bounds_intersects (index_bounds h) (filter_bounds q') = Ok false ->
  exists vlrs s, write_index base h cells = Ok vlrs /\ index_filter pts vlrs ix q cur None = Ok (idx_of h, q', s) /\ fs_res s = [].
Proof.
  intros HB HI HO HF HQ HM. destruct (write_index_ok base h cells HF) as (gs & vs & EW & _).
  set (vlrs := base ++ [head_vlr h] ++ vs) in *. exists vlrs. unfold index_filter. set (s0 := mkF [] cur None).
  assert (LV : S (length vlrs) = (length base + S (S (length vs)))%nat) by (unfold vlrs; rewrite !app_length; cbn [List.length]; lia). rewrite LV.
  pose proof (skip_loop pts ix q ([head_vlr h] ++ vs) base HB HI (S (S (length vs))) [] s0) as SK. change ([] ++ base) with base in SK. change ([] ++ base ++ [head_vlr h] ++ vs) with vlrs in SK.
  change (lenB (@nil vlr)) with 0%Z in SK. rewrite SK. clear SK.
  set (LP := filter_loop (S (S (length vs))) pts vlrs ix q (lenB base) s0).
  assert (E : LP = Ok (idx_of h, q', s0, lenB base)).
  { unfold LP. cbn [filter_loop]. replace (lenB vlrs <=? lenB base)%Z with false by (unfold vlrs; rewrite !app_length; cbn [List.length]; lia).
    unfold vlrs at 1. rewrite nth_error_app2 by lia. replace (Z.to_nat (lenB base) - length base)%nat with 0%nat by lia. cbn [app nth_error].
    rewrite head_user. change (v_id (head_vlr h) =? 42)%Z with true. cbv iota. rewrite (load_ok ix h HO). cbn [obind negb]. rewrite HQ. cbn [obind].
    change (index_bounds (ix_h (idx_of h))) with (index_bounds h). rewrite HM. reflexivity. }
  rewrite E. cbn [obind]. eexists. split; [exact EW|]. split; reflexivity.
Qed.

(** Load() establishes the invariant. *)
From Coq Require Import ZArith List Bool Lia Permutation Sorting.Sorted.
Import ListNotations.
From Verif Require Import Outcome Bytes Float64 Float64_Proofs Header_Model Cached_Model Cached_Proofs Summary_Proofs Chipper_Model Chipper_Spec Chipper_Lists Chipper_Proofs Chipper_Split Chipper_Run.
Local Open Scope Z_scope.
Local Notation length := List.length (only parsing).

Lemma numbered_length junk l : forall i, length (numbered junk i l) = length l.
Proof. induction l as [|x l IH]; intros i; cbn [numbered List.length]; auto. Qed.
Lemma numbered_nth junk l : forall i k, 0 <= i -> i + lenZ l <= 2 ^ 32 -> (k < length l)%nat ->
  nth k (numbered junk i l) ref0 = mkRef (nth k l f64_zero) (i + Z.of_nat k) junk.
Proof.
  induction l as [|x l IH]; intros i k Hi Hl Hk; [cbn in Hk; lia|]. cbn [List.length] in *. cbn [numbered].
  destruct k as [|k]; cbn [nth]; [f_equal; lia|].
  destruct l as [|y l]; [cbn in Hk; lia|]. cbn [List.length] in *. rewrite Z.mod_small by lia. rewrite IH by (cbn [List.length]; lia). f_equal. lia.
Qed.
Lemma numbered_at junk l k : lenZ l <= 2 ^ 32 -> 0 <= k < lenZ l -> (numbered junk 0 l).[k] = mkRef (nth (Z.to_nat k) l f64_zero) k junk.
Proof. intros H K. unfold at_. rewrite numbered_nth by lia. f_equal. lia. Qed.
Lemma numbered_ids junk l : lenZ l <= 2 ^ 32 -> map t_id (numbered junk 0 l) = zseq 0 (length l).
Proof.
  intros H. apply nth_ext with (d := 0) (d' := 0); [rewrite map_length, numbered_length, zseq_length; reflexivity|].
  intros k Hk. rewrite map_length, numbered_length in Hk. rewrite (nth_indep _ 0 (t_id ref0)) by (rewrite map_length, numbered_length; exact Hk).
  rewrite map_nth, numbered_nth by lia. cbn [t_id]. unfold zseq. rewrite (nth_indep _ 0 ((fun i => 0 + Z.of_nat i) 0%nat)) by (rewrite map_length, seq_length; exact Hk).
  rewrite (map_nth (fun i => 0 + Z.of_nat i)), seq_nth by exact Hk. lia.
Qed.

Lemma In_at v x : In x v -> exists i, 0 <= i < lenZ v /\ v.[i] = x.
Proof. intros H. apply (In_nth _ _ ref0) in H. destruct H as (k & Hk & E). exists (Z.of_nat k). split; [lia|]. unfold at_. now rewrite Nat2Z.id. Qed.
Lemma at_In v i : 0 <= i < lenZ v -> In v.[i] v.
Proof. intros H. apply nth_In. lia. Qed.
Lemma SS_sorted_on v : Forall finr v -> StronglySorted (fun a b => pos_lt b a = false) v -> sorted_on v 0 (lenZ v).
Proof.
  intros F S i j Hi Hij Hj. rewrite Forall_forall in F. pose proof (F _ (at_In v i ltac:(lia))) as Fi. pose proof (F _ (at_In v j ltac:(lia))) as Fj.
  destruct (Z.eq_dec i j) as [->|N]; [apply ple_R; auto; apply RIneq.Rle_refl|]. apply ple_of; auto.
  apply (SS_nth _ _ ref0 S (Z.to_nat i) (Z.to_nat j)); lia.
Qed.
Lemma nth_map_in {A B} (f : A -> B) l k d d' : (k < length l)%nat -> nth k (map f l) d = f (nth k l d').
Proof. intros H. rewrite (nth_indep _ d (f d')) by (rewrite map_length; exact H). apply map_nth. Qed.

Lemma load_ok srt junk spare pts : is_sort srt -> finite_points pts -> pts <> [] -> lenZ pts <= 2 ^ 32 ->
  exists c, load srt junk spare pts = Ok c /\ good pts c SX SY 0 (lenZ pts) /\ c_s c = spare /\ c_blocks c = [] /\
    length (c_x c) = length pts /\ Permutation (map t_id (c_x c)) (all_ids pts).
Proof.
  intros SO FP NE Hn. unfold load.
  set (x0 := numbered junk 0 (map fst pts)). set (y0 := numbered junk 0 (map snd pts)).
  assert (LP : 0 < lenZ pts) by (destruct pts; [congruence|cbn [List.length]; lia]).
  assert (LX0 : length x0 = length pts) by (unfold x0; now rewrite numbered_length, map_length).
  assert (LY0 : length y0 = length pts) by (unfold y0; now rewrite numbered_length, map_length).
  unfold finite_points in FP. rewrite Forall_forall in FP.
  assert (X0 : forall i, 0 <= i < lenZ pts -> x0.[i] = mkRef (x_at pts i) i junk).
  { intros i Hi. unfold x0. rewrite numbered_at by (rewrite map_length; lia). f_equal. unfold x_at. now rewrite (nth_map_in _ _ _ _ (f64_zero, f64_zero)) by lia. }
  assert (Y0 : forall i, 0 <= i < lenZ pts -> y0.[i] = mkRef (y_at pts i) i junk).
  { intros i Hi. unfold y0. rewrite numbered_at by (rewrite map_length; lia). f_equal. unfold y_at. now rewrite (nth_map_in _ _ _ _ (f64_zero, f64_zero)) by lia. }
  assert (FX : forall i, 0 <= i < lenZ pts -> f64_fin (x_at pts i) = true /\ f64_fin (y_at pts i) = true).
  { intros i Hi. apply FP. apply nth_In. lia. }
  assert (FX0 : Forall finr x0).
  { apply Forall_forall. intros r Hr. apply In_at in Hr. rewrite LX0 in Hr. destruct Hr as (i & Hi & <-). unfold finr. rewrite X0 by exact Hi. apply FX, Hi. }
  destruct (SO pos_lt x0 (pos_lt_weak _ FX0)) as (PX & SX'). set (xs := srt pos_lt x0) in *.
  assert (LX : length xs = length pts) by (rewrite <- (Permutation_length PX); exact LX0).
  assert (IDX : Permutation (map t_id xs) (zseq 0 (length pts))).
  { rewrite <- (Permutation_map t_id PX). unfold x0. rewrite numbered_ids, map_length by (rewrite map_length; exact Hn). reflexivity. }
  assert (XS : forall i, 0 <= i < lenZ pts -> 0 <= t_id xs.[i] < lenZ pts /\ t_pos xs.[i] = x_at pts (t_id xs.[i])).
  { intros i Hi. pose proof (Permutation_in _ (Permutation_sym PX) (at_In xs i ltac:(lia))) as I. apply In_at in I. rewrite LX0 in I.
    destruct I as (j & Hj & <-). rewrite X0 by exact Hj. cbn. split; [lia|reflexivity]. }
  destruct (relink_ok t_id xs 0 y0) as (y1 & -> & LY1 & W1 & _).
  { apply (Permutation_NoDup (Permutation_sym IDX)), zseq_NoDup. }
  { intros r Hr. apply In_at in Hr. rewrite LX in Hr. destruct Hr as (i & Hi & <-). rewrite LY0. apply XS, Hi. }
  cbn [obind]. rewrite LY0 in LY1.
  assert (Y1 : forall id, 0 <= id < lenZ pts -> exists k, 0 <= k < lenZ pts /\ t_id xs.[k] = id /\ y1.[id] = mkRef (y_at pts id) id k).
  { intros id Hid. assert (I : In id (map t_id xs)) by (apply (Permutation_in _ (Permutation_sym IDX)), zseq_In; lia).
    apply in_map_iff in I. destruct I as (r & E & Hr). apply In_at in Hr. destruct Hr as (k & Hk & <-). exists k. rewrite LX in Hk. split; [exact Hk|]. split; [exact E|].
    specialize (W1 (Z.to_nat k) ltac:(lia)). fold (at_ xs k) in W1. rewrite E in W1. rewrite W1, Y0 by exact Hid. unfold set_o. cbn. f_equal. lia. }
  assert (FY1 : Forall finr y1).
  { apply Forall_forall. intros r Hr. apply In_at in Hr. rewrite LY1 in Hr. destruct Hr as (i & Hi & <-). unfold finr. destruct (Y1 i Hi) as (k & _ & _ & ->). apply FX, Hi. }
  destruct (SO pos_lt y1 (pos_lt_weak _ FY1)) as (PY & SY'). set (ys := srt pos_lt y1) in *.
  assert (LY : length ys = length pts) by (rewrite <- (Permutation_length PY); exact LY1).
  assert (YS : forall i, 0 <= i < lenZ pts -> 0 <= t_id ys.[i] < lenZ pts /\ t_pos ys.[i] = y_at pts (t_id ys.[i]) /\ 0 <= t_o ys.[i] < lenZ pts /\ t_id xs.[t_o ys.[i]] = t_id ys.[i]).
  { intros i Hi. pose proof (Permutation_in _ (Permutation_sym PY) (at_In ys i ltac:(lia))) as I. apply In_at in I. rewrite LY1 in I.
    destruct I as (j & Hj & <-). destruct (Y1 j Hj) as (k & Hk & E & ->). cbn. repeat split; try lia. }
  assert (NDI : NoDup (map t_id y1)).
  { assert (EI : map t_id y1 = zseq 0 (length pts)).
    { apply nth_ext with (d := 0) (d' := 0); [rewrite map_length, zseq_length; exact LY1|]. intros k Hk. rewrite map_length in Hk.
      rewrite (nth_map_in _ _ _ _ ref0) by exact Hk. destruct (Y1 (Z.of_nat k) ltac:(lia)) as (q & _ & _ & E). unfold at_ in E. rewrite Nat2Z.id in E. rewrite E. cbn [t_id].
      unfold zseq. rewrite (nth_map_in _ _ _ _ 0%nat) by (rewrite seq_length; lia). rewrite seq_nth by lia. lia. }
    rewrite EI. apply zseq_NoDup. }
  assert (NDO : NoDup (map t_o ys)).
  { apply (NoDup_map_inv (fun o => t_id xs.[o])). rewrite map_map.
    replace (map (fun r => t_id xs.[t_o r]) ys) with (map t_id ys).
    - apply (Permutation_NoDup (Permutation_map t_id PY)). exact NDI.
    - apply map_ext_in. intros r Hr. apply In_at in Hr. rewrite LY in Hr. destruct Hr as (i & Hi & <-). symmetry. apply YS, Hi. }
  destruct (relink_ok t_o ys 0 xs NDO) as (x2 & -> & LX2 & W2 & F2).
  { intros r Hr. apply In_at in Hr. rewrite LY in Hr. destruct Hr as (i & Hi & <-). rewrite LX. apply YS, Hi. }
  cbn [obind].
  assert (W2' : forall i, 0 <= i < lenZ pts -> x2.[t_o ys.[i]] = set_o xs.[t_o ys.[i]] i).
  { intros i Hi. specialize (W2 (Z.to_nat i) ltac:(lia)). fold (at_ ys i) in W2. rewrite W2. f_equal. lia. }
  assert (X2 : forall j, 0 <= j < lenZ pts -> t_pos x2.[j] = t_pos xs.[j] /\ t_id x2.[j] = t_id xs.[j]).
  { intros j Hj. destruct (in_dec Z.eq_dec j (map t_o ys)) as [I|N]; [|rewrite F2 by (lia || assumption); auto].
    apply in_map_iff in I. destruct I as (r & <- & Hr). apply In_at in Hr. rewrite LY in Hr. destruct Hr as (i & Hi & <-). rewrite W2' by exact Hi. auto. }
  rewrite LX in LX2. eexists. split; [reflexivity|]. cbn [c_s c_blocks c_x]. split; [|split; [reflexivity|split; [reflexivity|split; [exact LX2|]]]].
  2:{ transitivity (map t_id xs); [|exact IDX]. replace (map t_id x2) with (map t_id xs); [reflexivity|].
      apply nth_ext with (d := 0) (d' := 0); [rewrite !map_length; congruence|]. intros k Hk. rewrite map_length in Hk.
      rewrite !(nth_map_in _ _ _ _ ref0) by lia. symmetry. replace k with (Z.to_nat (Z.of_nat k)) by apply Nat2Z.id. apply X2. lia. }
  assert (LK : linked ys x2 0 (lenZ pts)).
  { intros i Hi. destruct (YS i Hi) as (A & B & C & D). split; [exact C|]. rewrite W2' by exact Hi. cbn. auto. }
  assert (FXS : Forall finr xs) by (eapply Permutation_Forall; eassumption).
  assert (FYS : Forall finr ys) by (eapply Permutation_Forall; eassumption).
  pose proof (SS_sorted_on xs FXS SX') as S1. pose proof (SS_sorted_on ys FYS SY') as S2. rewrite LX in S1. rewrite LY in S2.
  constructor; cbn [vec dirof c_x c_y c_dx c_dy]; try lia.
  - now apply linked_sym.
  - intros i j Hi Hij Hj. unfold ple. rewrite (proj1 (X2 i ltac:(lia))), (proj1 (X2 j ltac:(lia))). apply S1; lia.
  - exact S2.
  - intros i Hi. destruct (X2 i Hi) as (A & B). destruct (XS i Hi) as (C & D). unfold finr. rewrite A, B. cbn [coord]. rewrite D. split; [reflexivity|]. now apply FX.
  - intros i Hi. destruct (YS i Hi) as (C & D & _). unfold finr. cbn [coord]. rewrite D. split; [reflexivity|]. now apply FX.
  - left. auto.
Qed.

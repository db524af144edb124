(** Floor, ceiling and elevation bounds. *)
From Coq Require Import ZArith Reals List Bool Lia Lra.
From Flocq Require Import Core BinarySingleNaN Binary Bits.
Import ListNotations.
From Verif Require Import Outcome Bytes Float64 Float64_Proofs Bounds_Proofs Coord_Proofs Index_Cell.
Local Open Scope R_scope.

Lemma floor_ok x : f64_fin x = true -> f64_fin (f64_floor x) = true /\ f64_R (f64_floor x) = IZR (Zfloor (f64_R x)).
Proof.
  intros F. pose proof (Bnearbyint_correct 53 1024 prec53_lt_emax unop_nan_pl64 mode_DN x) as (N1 & N2 & _).
  split; [unfold f64_fin, f64_floor; rewrite N2; exact F|]. unfold f64_R, f64_floor. rewrite N1, round_FIX0. reflexivity.
Qed.
Lemma ceil_ok x : f64_fin x = true -> f64_fin (f64_ceil x) = true /\ f64_R (f64_ceil x) = IZR (Zceil (f64_R x)).
Proof.
  intros F. pose proof (Bnearbyint_correct 53 1024 prec53_lt_emax unop_nan_pl64 mode_UP x) as (N1 & N2 & _).
  split; [unfold f64_fin, f64_ceil; rewrite N2; exact F|]. unfold f64_R, f64_ceil. rewrite N1, round_FIX0. reflexivity.
Qed.
Lemma to_int_ok ok x n : f64_fin x = true -> f64_R x = IZR n -> f64_to_int ok x = if ok n then Ok n else UB UBFloatToInt.
Proof. intros F E. unfold f64_to_int. unfold f64_fin in F. rewrite F, (trunc_of_int x n F E). reflexivity. Qed.

Lemma not_fin_cmp z c : f64_fin z = false -> f64_fin c = true ->
  (f64_lt c z = true) \/ (f64_lt z c = true) \/ (f64_lt c z = false /\ f64_lt z c = false /\ forall d, f64_lt d z = false /\ f64_lt z d = false).
Proof.
  intros FZ FC. destruct z as [s|s|s pl H|s m e H]; try discriminate.
  - destruct s; [right; left|left]; destruct c as [[]|[]|[] ? ?|[] ? ? ?]; try discriminate; reflexivity.
  - right; right. repeat split; try (destruct c as [[]|[]|[] ? ?|[] ? ? ?]; reflexivity); destruct d as [[]|[]|[] ? ?|[] ? ? ?]; reflexivity.
Qed.

(** UpdateZBounds never converts out of range, and touches only the bounds. *)
Lemma update_z_ok c z : (-32768 <= k_minz c <= 32767)%Z -> (-32768 <= k_maxz c <= 32767)%Z -> exists lo hi, update_z_bounds c z =
  Ok (mkCell (k_off c) (k_num c) lo hi (k_pts c) (k_zsub c) (k_xysub c)) /\ (-32768 <= lo <= 32767)%Z /\ (-32768 <= hi <= 32767)%Z.
Proof.
  intros HLo HHi. unfold update_z_bounds.
  destruct (of_Z_ok 32767) as (F1 & R1); [lia|]. destruct (of_Z_ok (-32768)) as (F2 & R2); [lia|].
  destruct (of_Z_ok (k_maxz c)) as (F3 & R3); [lia|]. destruct (of_Z_ok (k_minz c)) as (F4 & R4); [lia|].
  unfold f64_gt. destruct (f64_lt (f64_of_Z 32767) z) eqn:G1; [eexists _, _; split; [reflexivity|lia]|].
  destruct (f64_lt z (f64_of_Z (-32768))) eqn:G2; [eexists _, _; split; [reflexivity|lia]|].
  destruct (f64_fin z) eqn:FZ.
  - assert (Z1 : f64_R z <= IZR 32767).
    { destruct (fcase_lt (f64_of_Z 32767) z F1 FZ) as [(X & _)|(_ & X)]; [congruence|lra]. }
    assert (Z2 : IZR (-32768) <= f64_R z).
    { destruct (fcase_lt z (f64_of_Z (-32768)) FZ F2) as [(X & _)|(_ & X)]; [congruence|lra]. }
    destruct (ceil_ok z FZ) as (C1 & C2). destruct (floor_ok z FZ) as (D1 & D2). rewrite (to_int_ok _ _ _ C1 C2), (to_int_ok _ _ _ D1 D2).
    assert (B1 : (-32768 <= Zceil (f64_R z) <= 32767)%Z).
    { split; [|now apply Zceil_glb]. apply le_IZR. apply Rle_trans with (f64_R z); [exact Z2|apply Zceil_ub]. }
    assert (B2 : (-32768 <= Zfloor (f64_R z) <= 32767)%Z).
    { split; [now apply Zfloor_lub|]. apply le_IZR. apply Rle_trans with (f64_R z); [apply Zfloor_lb|exact Z1]. }
    replace (in_signedb 16 (Zceil (f64_R z))) with true by (unfold in_signedb; symmetry; apply andb_true_intro; split; [apply Z.leb_le|apply Z.ltb_lt]; lia).
    replace (in_signedb 16 (Zfloor (f64_R z))) with true by (unfold in_signedb; symmetry; apply andb_true_intro; split; [apply Z.leb_le|apply Z.ltb_lt]; lia).
    destruct (f64_lt (f64_of_Z (k_maxz c)) z), (f64_lt z (f64_of_Z (k_minz c))); cbn [obind]; eexists _, _; split; try reflexivity; lia.
  - destruct (not_fin_cmp z _ FZ F1) as [X|[X|(_ & _ & X)]]; [congruence| |].
    + destruct (not_fin_cmp z _ FZ F2) as [Y|[Y|(_ & _ & Y)]]; [|congruence|].
      * destruct z as [s|[]|s pl H|s m e H]; try discriminate FZ; [|discriminate G1|discriminate X]. discriminate G2.
      * destruct (Y (f64_of_Z 32767)) as (_ & Y'). congruence.
    + destruct (X (f64_of_Z (k_maxz c))) as (-> & _). destruct (X (f64_of_Z (k_minz c))) as (_ & ->). cbn [obind]. eexists _, _; split; [reflexivity|lia].
Qed.

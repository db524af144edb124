From Coq Require Import ZArith Reals List Bool Lia Lra.
From Flocq Require Import Core BinarySingleNaN Binary Bits.
Import ListNotations.
From Verif Require Import Outcome Bytes Float64 Float64_Proofs Header_Model Point_Model Bounds_Model Bounds_Spec.
Local Open Scope R_scope.

(** ** rounding is monotone *)
Definition rnd64 (x : R) : R := round radix2 (SpecFloat.fexp 53 1024) (round_mode mode_NE) x.
Lemma rnd64_le x y : x <= y -> rnd64 x <= rnd64 y.
Proof. apply round_le; [apply fexp_correct; reflexivity|apply valid_rnd_N || apply valid_rnd_round_mode]. Qed.

Lemma f64_add_fin x y : f64_fin (f64_add x y) = true -> f64_fin x = true -> f64_fin y = true ->
  f64_R (f64_add x y) = rnd64 (f64_R x + f64_R y).
Proof.
  intros F Fx Fy. unfold f64_add, b64_plus, f64_R, f64_fin in *.
  pose proof (Bplus_correct 53 1024 eq_refl eq_refl binop_nan_pl64 mode_NE x y Fx Fy) as C.
  destruct (Rlt_bool _ _) in C.
  - exact (proj1 C).
  - exfalso. destruct C as (C & _). revert F C. destruct (Bplus _ _ _ _ _ _ _ _); cbn; try discriminate; unfold binary_overflow; cbn; intros; discriminate.
Qed.
Lemma f64_mul_fin x y : f64_fin (f64_mul x y) = true -> f64_R (f64_mul x y) = rnd64 (f64_R x * f64_R y).
Proof.
  intros F. unfold f64_mul, b64_mult, f64_R, f64_fin in *.
  pose proof (Bmult_correct 53 1024 eq_refl eq_refl binop_nan_pl64 mode_NE x y) as C.
  destruct (Rlt_bool _ _) in C.
  - exact (proj1 C).
  - exfalso. revert F C. destruct (Bmult _ _ _ _ _ _ _ _); cbn; try discriminate; unfold binary_overflow; cbn; intros; discriminate.
Qed.

Lemma fcase_lt x y : f64_fin x = true -> f64_fin y = true -> (f64_lt x y = true /\ f64_R x < f64_R y) \/ (f64_lt x y = false /\ f64_R y <= f64_R x).
Proof.
  intros Fx Fy. destruct (f64_lt x y) eqn:E; [left|right]; split; auto.
  - now apply f64_lt_R.
  - apply Rnot_lt_le. intros L. apply f64_lt_R in L; auto. congruence.
Qed.
Lemma fcase_le x y : f64_fin x = true -> f64_fin y = true -> (f64_le x y = true /\ f64_R x <= f64_R y) \/ (f64_le x y = false /\ f64_R y < f64_R x).
Proof.
  intros Fx Fy. destruct (f64_le x y) eqn:E; [left|right]; split; auto.
  - now apply f64_le_R.
  - apply Rnot_le_lt. intros L. apply f64_le_R in L; auto. congruence.
Qed.

Ltac fcase :=
  match goal with
  | |- context [f64_lt ?x ?y] => let H := fresh "E" in let L := fresh "L" in
      destruct (fcase_lt x y) as [(H & L)|(H & L)]; [assumption|assumption| |]; rewrite H
  | |- context [f64_le ?x ?y] => let H := fresh "E" in let L := fresh "L" in
      destruct (fcase_le x y) as [(H & L)|(H & L)]; [assumption|assumption| |]; rewrite H
  end.

(** ** ranges *)
Lemma contains_v_spec a v : range_fin a -> f64_fin v = true ->
  range_contains_v a v = true <-> rset a (f64_R v).
Proof.
  intros (F1 & F2) Fv. unfold range_contains_v, rset. fcase; fcase; cbn [andb]; split; intros H; try discriminate; try reflexivity; try lra.
Qed.
Lemma contains_spec a b : range_fin a -> range_fin b -> range_valid b ->
  range_contains a b = true <-> (forall x, rset b x -> rset a x).
Proof.
  intros (F1 & F2) (G1 & G2) V. unfold range_contains, rset, range_valid in *. split.
  - fcase; fcase; cbn [andb]; try discriminate. intros _ x Hx. lra.
  - intros H. pose proof (H _ (conj (Rle_refl _) V)) as H1. pose proof (H _ (conj V (Rle_refl _))) as H2.
    fcase; fcase; try reflexivity; lra.
Qed.
Lemma clip_fin a b : range_fin a -> range_fin b -> range_fin (range_clip a b).
Proof. intros (F1 & F2) (G1 & G2). unfold range_clip, range_fin. cbn [rg_min rg_max]. destruct (f64_gt _ _), (f64_lt _ _); auto. Qed.
Lemma clip_spec a b x : range_fin a -> range_fin b -> rset (range_clip a b) x <-> rset a x /\ rset b x.
Proof.
  intros (F1 & F2) (G1 & G2). unfold range_clip, rset, f64_gt. cbn [rg_min rg_max]. fcase; fcase; lra.
Qed.
Lemma grow_v_fin a v : range_fin a -> f64_fin v = true -> range_fin (range_grow_v a v).
Proof. intros (F1 & F2) Fv. unfold range_grow_v, range_fin. cbn [rg_min rg_max]. destruct (f64_gt _ _), (f64_lt _ _); auto. Qed.
Lemma grow_v_R a v : range_fin a -> f64_fin v = true ->
  f64_R (rg_min (range_grow_v a v)) = Rmin (f64_R (rg_min a)) (f64_R v) /\
  f64_R (rg_max (range_grow_v a v)) = Rmax (f64_R (rg_max a)) (f64_R v).
Proof.
  intros (F1 & F2) Fv. unfold range_grow_v, f64_gt. cbn [rg_min rg_max]. split.
  - fcase; [rewrite Rmin_right|rewrite Rmin_left]; lra.
  - fcase; [rewrite Rmax_right|rewrite Rmax_left]; lra.
Qed.
Lemma grow_fin a b : range_fin a -> range_fin b -> range_fin (range_grow a b).
Proof. intros Ha (G1 & G2). unfold range_grow. apply grow_v_fin; [apply grow_v_fin|]; assumption. Qed.
Lemma grow_R a b : range_fin a -> range_fin b -> range_valid b ->
  f64_R (rg_min (range_grow a b)) = Rmin (f64_R (rg_min a)) (f64_R (rg_min b)) /\
  (range_valid a -> f64_R (rg_max (range_grow a b)) = Rmax (f64_R (rg_max a)) (f64_R (rg_max b))).
Proof.
  intros Ha (G1 & G2) V. unfold range_grow, range_valid in *.
  destruct (grow_v_R (range_grow_v a (rg_min b)) (rg_max b) (grow_v_fin _ _ Ha G1) G2) as (E1 & E2).
  destruct (grow_v_R a (rg_min b) Ha G1) as (E3 & E4). rewrite E1, E2, E3, E4.
  clear E1 E2 E3 E4. generalize dependent (f64_R (rg_min b)). generalize (f64_R (rg_max b)) (f64_R (rg_min a)) (f64_R (rg_max a)).
  intros bx an ax bn V. split; [|intros V'].
  - unfold Rmin at 2 3. destruct (Rle_dec an bn); unfold Rmin; destruct (Rle_dec _ _); lra.
  - unfold Rmax at 2. destruct (Rle_dec ax bn); unfold Rmax; repeat destruct (Rle_dec _ _); lra.
Qed.
Lemma grow_spec a b : range_fin a -> range_fin b -> range_valid a -> range_valid b ->
  (forall x, rset a x \/ rset b x -> rset (range_grow a b) x) /\
  (forall lo hi, (forall x, rset a x \/ rset b x -> lo <= x <= hi) -> forall x, rset (range_grow a b) x -> lo <= x <= hi).
Proof.
  intros Fa Fb Va Vb. destruct (grow_R a b Fa Fb Vb) as (E1 & E2). specialize (E2 Va). unfold rset. rewrite E1, E2. unfold range_valid in *. split.
  - intros x H. unfold Rmin, Rmax. destruct (Rle_dec _ _), (Rle_dec _ _); lra.
  - intros lo hi H x Hx.
    pose proof (H _ (or_introl (conj (Rle_refl _) Va))). pose proof (H _ (or_introl (conj Va (Rle_refl _)))).
    pose proof (H _ (or_intror (conj (Rle_refl _) Vb))). pose proof (H _ (or_intror (conj Vb (Rle_refl _)))).
    revert Hx. unfold Rmin, Rmax. destruct (Rle_dec _ _), (Rle_dec _ _); lra.
Qed.
Lemma grow_v_spec a v : range_fin a -> f64_fin v = true -> range_valid a ->
  (forall x, rset a x \/ x = f64_R v -> rset (range_grow_v a v) x) /\
  (forall lo hi, (forall x, rset a x \/ x = f64_R v -> lo <= x <= hi) -> forall x, rset (range_grow_v a v) x -> lo <= x <= hi).
Proof.
  intros Fa Fv Va. destruct (grow_v_R a v Fa Fv) as (E1 & E2). unfold rset. rewrite E1, E2. unfold range_valid in *. split.
  - intros x H. unfold Rmin, Rmax. destruct (Rle_dec _ _), (Rle_dec _ _); lra.
  - intros lo hi H x Hx.
    pose proof (H _ (or_introl (conj (Rle_refl _) Va))). pose proof (H _ (or_introl (conj Va (Rle_refl _)))).
    pose proof (H _ (or_intror eq_refl)).
    revert Hx. unfold Rmin, Rmax. destruct (Rle_dec _ _), (Rle_dec _ _); lra.
Qed.
Lemma overlaps_spec a b : range_fin a -> range_fin b -> range_valid a -> range_valid b ->
  range_overlaps a b = true <->
  (exists x, rset a x /\ rset b x) /\ f64_R (rg_max a) <> f64_R (rg_min b) /\ f64_R (rg_max b) <> f64_R (rg_min a).
Proof.
  intros (F1 & F2) (G1 & G2) Va Vb. unfold range_overlaps, f64_gt, rset, range_valid in *. split.
  - fcase; fcase; cbn [andb]; try discriminate. intros _. split; [|lra].
    exists (Rmax (f64_R (rg_min a)) (f64_R (rg_min b))). unfold Rmax. destruct (Rle_dec _ _); lra.
  - intros ((x & H1 & H2) & N1 & N2). fcase; fcase; try reflexivity; lra.
Qed.

Lemma shift_spec a d v : range_fin a -> f64_fin v = true -> f64_fin d = true -> range_fin (range_shift a d) -> f64_fin (f64_add v d) = true ->
  range_contains_v a v = true -> range_contains_v (range_shift a d) (f64_add v d) = true.
Proof.
  intros Fa Fv Fd Fs Fvd H. apply contains_v_spec in H; auto. apply contains_v_spec; auto.
  destruct Fa as (F1 & F2), Fs as (S1 & S2). unfold rset, range_shift in *. cbn [rg_min rg_max] in *.
  rewrite !f64_add_fin by assumption. split; apply rnd64_le; lra.
Qed.
Lemma scale_spec a d v : range_fin a -> f64_fin v = true -> 0 <= f64_R d -> range_fin (range_scale a d) -> f64_fin (f64_mul v d) = true ->
  range_contains_v a v = true -> range_contains_v (range_scale a d) (f64_mul v d) = true.
Proof.
  intros Fa Fv Fd Fs Fvd H. apply contains_v_spec in H; auto. apply contains_v_spec; auto.
  destruct Fs as (S1 & S2). unfold rset, range_scale in *. cbn [rg_min rg_max] in *.
  rewrite !f64_mul_fin by assumption. split; apply rnd64_le; apply Rmult_le_compat_r; lra.
Qed.

(** ** boxes *)
Lemma box_clip a : forall b, length a = length b -> box_fin a -> box_fin b ->
  exists c, bounds_clip a b = Ok c /\ box_fin c /\ forall xs, boxset c xs <-> boxset a xs /\ boxset b xs.
Proof.
  induction a as [|r a IH]; intros [|s b] HL Fa Fb; cbn in HL; try discriminate.
  - exists []. split; [reflexivity|]. split; [constructor|]. intros xs. unfold boxset. tauto.
  - apply Forall_inv in Fa as Fr. apply Forall_inv_tail in Fa. apply Forall_inv in Fb as Fs. apply Forall_inv_tail in Fb.
    destruct (IH b ltac:(congruence) Fa Fb) as (c & E & Fc & Hc). exists (range_clip r s :: c). cbn [bounds_clip]. rewrite E. cbn [obind].
    split; [reflexivity|]. split; [constructor; [now apply clip_fin|exact Fc]|].
    intros xs. unfold boxset in *. split.
    + intros H. inversion H as [|? x ? xs' H1 H2 ]; subst. apply clip_spec in H1; auto. apply Hc in H2. destruct H1, H2. split; constructor; auto.
    + intros (H & H'). inversion H as [|? x ? xs' H1 H2]; subst. inversion H' as [|? ? ? ? H3 H4]; subst.
      constructor; [apply clip_spec; auto|apply Hc; auto].
Qed.
Lemma box_grow a : forall b, length a = length b -> box_fin a -> box_fin b -> box_valid a -> box_valid b ->
  exists c, bounds_grow a b = Ok c /\ box_fin c /\
   (forall xs, boxset a xs \/ boxset b xs -> boxset c xs) /\
   (forall d, length d = length a -> (forall xs, boxset a xs \/ boxset b xs -> boxset d xs) -> forall xs, boxset c xs -> boxset d xs).
Proof.
  induction a as [|r a IH]; intros [|s b] HL Fa Fb Va Vb; cbn in HL; try discriminate.
  - exists []. split; [reflexivity|]. split; [constructor|]. unfold boxset. split; [tauto|]. intros d Hd H xs Hx. apply H. now left.
  - apply Forall_inv in Fa as Fr. apply Forall_inv_tail in Fa. apply Forall_inv in Fb as Fs. apply Forall_inv_tail in Fb.
    apply Forall_inv in Va as Vr. apply Forall_inv_tail in Va. apply Forall_inv in Vb as Vs. apply Forall_inv_tail in Vb.
    destruct (IH b ltac:(congruence) Fa Fb Va Vb) as (c & E & Fc & Hc1 & Hc2). exists (range_grow r s :: c). cbn [bounds_grow]. rewrite E. cbn [obind].
    split; [reflexivity|]. split; [constructor; [now apply grow_fin|exact Fc]|].
    destruct (grow_spec r s Fr Fs Vr Vs) as (G1 & G2). unfold boxset in *.
    assert (NE : forall l, box_valid l -> exists xs, Forall2 rset l xs).
    { induction l as [|t l IHl]; intros V; [exists []; constructor|]. apply Forall_inv in V as Vt. apply Forall_inv_tail in V.
      destruct (IHl V) as (xs & Hx). exists (f64_R (rg_min t) :: xs). constructor; [split; [apply Rle_refl|exact Vt]|exact Hx]. }
    split.
    + intros xs [H|H]; inversion H as [|? x ? xs' H1 H2]; subst; constructor; [apply G1; auto|apply Hc1; auto|apply G1; auto|apply Hc1; auto].
    + intros d Hd H xs Hx. destruct d as [|t d]; [discriminate|]. inversion Hx as [|? x ? xs' H1 H2]; subst.
      destruct (NE a Va) as (ya & Hya). destruct (NE b Vb) as (yb & Hyb). constructor.
      * apply (G2 (f64_R (rg_min t)) (f64_R (rg_max t))); [|exact H1]. intros z [Hz|Hz].
        -- specialize (H (z :: ya) (or_introl (Forall2_cons _ _ Hz Hya))). inversion H; subst. assumption.
        -- specialize (H (z :: yb) (or_intror (Forall2_cons _ _ Hz Hyb))). inversion H; subst. assumption.
      * apply (Hc2 d ltac:(cbn in Hd; congruence)); [|exact H2]. intros zs [Hz|Hz].
        -- specialize (H (f64_R (rg_min r) :: zs) (or_introl (Forall2_cons _ _ (conj (Rle_refl _) Vr) Hz))). inversion H; subst. assumption.
        -- specialize (H (f64_R (rg_min s) :: zs) (or_intror (Forall2_cons _ _ (conj (Rle_refl _) Vs) Hz))). inversion H; subst. assumption.
Qed.
Lemma box_nonempty l : box_valid l -> exists xs, boxset l xs.
Proof.
  induction l as [|t l IHl]; intros V; [exists []; constructor|]. apply Forall_inv in V as Vt. apply Forall_inv_tail in V.
  destruct (IHl V) as (xs & Hx). exists (f64_R (rg_min t) :: xs). constructor; [split; [apply Rle_refl|exact Vt]|exact Hx].
Qed.
Lemma box_contains a : forall b, length a = length b -> box_fin a -> box_fin b -> box_valid b ->
  exists v, bounds_contains a b = Ok v /\ (v = true <-> forall xs, boxset b xs -> boxset a xs).
Proof.
  induction a as [|r a IH]; intros [|s b] HL Fa Fb Vb; cbn in HL; try discriminate.
  - exists true. split; [reflexivity|]. split; auto.
  - apply Forall_inv in Fa as Fr. apply Forall_inv_tail in Fa. apply Forall_inv in Fb as Fs. apply Forall_inv_tail in Fb.
    apply Forall_inv in Vb as Vs. apply Forall_inv_tail in Vb. cbn [bounds_contains].
    pose proof (contains_spec r s Fr Fs Vs) as CS. destruct (range_contains r s); cbn [negb].
    + destruct (IH b ltac:(congruence) Fa Fb Vb) as (v & -> & Hv). exists v. split; [reflexivity|]. rewrite Hv. split.
      * intros H xs Hx. inversion Hx as [|? x ? xs' H1 H2]; subst. constructor; [apply (proj1 CS eq_refl), H1|apply H, H2].
      * intros H xs Hx. assert (Hs : rset s (f64_R (rg_min s))) by (split; [apply Rle_refl|exact Vs]).
        specialize (H (f64_R (rg_min s) :: xs) (Forall2_cons _ _ Hs Hx)). inversion H; subst. assumption.
    + exists false. split; [reflexivity|]. split; [discriminate|]. intros H. apply CS. intros x Hx.
      destruct (box_nonempty b Vb) as (xs & Hxs). specialize (H (x :: xs) (Forall2_cons _ _ Hx Hxs)). inversion H; subst. assumption.
Qed.
Lemma box_contains_short a b : (length b < length a)%nat ->
  bounds_contains a b = UB UBOutOfBounds \/ bounds_contains a b = Ok false.
Proof.
  revert b. induction a as [|r a IH]; intros [|s b] HL; cbn in HL; try lia.
  - left. reflexivity.
  - cbn [bounds_contains]. destruct (negb _); [now right|]. apply IH. lia.
Qed.
Lemma box_intersects a : forall b xs, length a = length b -> box_fin a -> box_fin b -> box_valid a -> box_valid b ->
  a <> [] -> Forall2 rinterior a xs -> boxset b xs -> bounds_intersects a b = Ok true.
Proof.
  destruct a as [|r a]; intros [|s b] xs HL Fa Fb Va Vb NE Ha Hb; cbn in HL; try discriminate; try congruence.
  apply Forall_inv in Fa as Fr. apply Forall_inv in Fb as Fs. apply Forall_inv in Va as Vr. apply Forall_inv in Vb as Vs.
  inversion Ha as [|? x ? xs' H1 H2]; subst. inversion Hb as [|? ? ? ? H3 H4]; subst. cbn [bounds_intersects].
  assert (E : range_overlaps r s = true).
  { apply overlaps_spec; auto. unfold rinterior, rset in *. split; [exists x; unfold rset; lra|lra]. }
  now rewrite E.
Qed.

(** C35: Range and Bounds as sets of real numbers. *)
From Coq Require Import ZArith Reals List Bool Lia Lra.
From Flocq Require Import Core BinarySingleNaN Binary Bits.
Import ListNotations.
From Verif Require Import Outcome Bytes Float64 Float64_Proofs Header_Model Point_Model Bounds_Model Bounds_Spec Bounds_Proofs IO_Samples.
Local Open Scope R_scope.

(** ** one dimension *)
(** A value is contained exactly when it lies in the closed interval. *)
Theorem C35_contains_value : forall a v, range_fin a -> f64_fin v = true ->
  (range_contains_v a v = true <-> rset a (f64_R v)).
Proof. exact contains_v_spec. Qed.
(** A range contains a non-empty range exactly when it is a superset. *)
Theorem C35_contains_range : forall a b, range_fin a -> range_fin b -> range_valid b ->
  (range_contains a b = true <-> (forall x, rset b x -> rset a x)).
Proof. exact contains_spec. Qed.
(** Clipping is set intersection. *)
Theorem C35_clip_range : forall a b x, range_fin a -> range_fin b ->
  (rset (range_clip a b) x <-> rset a x /\ rset b x).
Proof. exact clip_spec. Qed.
(** Growing is the convex hull: it covers both, and every interval that covers
    both covers it. *)
Theorem C35_grow_range : forall a b, range_fin a -> range_fin b -> range_valid a -> range_valid b ->
  (forall x, rset a x \/ rset b x -> rset (range_grow a b) x) /\
  (forall lo hi, (forall x, rset a x \/ rset b x -> lo <= x <= hi) -> forall x, rset (range_grow a b) x -> lo <= x <= hi).
Proof. exact grow_spec. Qed.
Theorem C35_grow_value : forall a v, range_fin a -> f64_fin v = true -> range_valid a ->
  (forall x, rset a x \/ x = f64_R v -> rset (range_grow_v a v) x) /\
  (forall lo hi, (forall x, rset a x \/ x = f64_R v -> lo <= x <= hi) -> forall x, rset (range_grow_v a v) x -> lo <= x <= hi).
Proof. exact grow_v_spec. Qed.
(** Overlap is a common point, except that ranges which only touch do not
    overlap. *)
Theorem C35_overlaps_range : forall a b, range_fin a -> range_fin b -> range_valid a -> range_valid b ->
  (range_overlaps a b = true <->
   (exists x, rset a x /\ rset b x) /\ f64_R (rg_max a) <> f64_R (rg_min b) /\ f64_R (rg_max b) <> f64_R (rg_min a)).
Proof. exact overlaps_spec. Qed.
(** Shifting (scaling by a non-negative factor) a range moves its values into the
    moved range, as long as nothing overflows. *)
Theorem C35_shift_range : forall a d v, range_fin a -> f64_fin v = true -> f64_fin d = true ->
  range_fin (range_shift a d) -> f64_fin (f64_add v d) = true ->
  range_contains_v a v = true -> range_contains_v (range_shift a d) (f64_add v d) = true.
Proof. exact shift_spec. Qed.
Theorem C35_scale_range : forall a d v, range_fin a -> f64_fin v = true -> 0 <= f64_R d ->
  range_fin (range_scale a d) -> f64_fin (f64_mul v d) = true ->
  range_contains_v a v = true -> range_contains_v (range_scale a d) (f64_mul v d) = true.
Proof. exact scale_spec. Qed.

(** ** boxes of the same dimension *)
Theorem C35_clip_bounds : forall a b, length a = length b -> box_fin a -> box_fin b ->
  exists c, bounds_clip a b = Ok c /\ forall xs, boxset c xs <-> boxset a xs /\ boxset b xs.
Proof. intros a b H1 H2 H3. destruct (box_clip a b H1 H2 H3) as (c & E & _ & Hc). exists c. auto. Qed.
Theorem C35_grow_bounds : forall a b, length a = length b -> box_fin a -> box_fin b -> box_valid a -> box_valid b ->
  exists c, bounds_grow a b = Ok c /\
   (forall xs, boxset a xs \/ boxset b xs -> boxset c xs) /\
   (forall d, length d = length a -> (forall xs, boxset a xs \/ boxset b xs -> boxset d xs) -> forall xs, boxset c xs -> boxset d xs).
Proof. intros a b H1 H2 H3 H4 H5. destruct (box_grow a b H1 H2 H3 H4 H5) as (c & E & _ & Hc). exists c. auto. Qed.
Theorem C35_contains_bounds : forall a b, length a = length b -> box_fin a -> box_fin b -> box_valid b ->
  exists v, bounds_contains a b = Ok v /\ (v = true <-> forall xs, boxset b xs -> boxset a xs).
Proof. exact box_contains. Qed.
(** Boxes that share a point in the interior of one of them intersect (the
    converse fails, see below). *)
Theorem C35_intersects_partial : forall a b xs, length a = length b -> box_fin a -> box_fin b -> box_valid a -> box_valid b ->
  a <> [] -> Forall2 rinterior a xs -> boxset b xs -> bounds_intersects a b = Ok true.
Proof. exact box_intersects. Qed.

(** A point is in a two-dimensional bounds when its x and y are; a third
    dimension also constrains z, unless it has (almost) no length. *)
Theorem C35_contains_point : forall b x y z, box_fin b -> f64_fin x = true -> f64_fin y = true -> f64_fin z = true ->
  (bounds_contains_xyz b x y z = true <->
   exists rx ry rest, b = rx :: ry :: rest /\ rset rx (f64_R x) /\ rset ry (f64_R y) /\
     match rest with [] => True | rz :: _ => rset rz (f64_R z) \/ compare_distance (range_length rz) f64_zero = true end).
Proof.
  intros b x y z Fb Fx Fy Fz. destruct b as [|rx [|ry rest]]; cbn [bounds_contains_xyz].
  - split; [discriminate|]. intros (? & ? & ? & E & _). discriminate.
  - split; [discriminate|]. intros (? & ? & ? & E & _). discriminate.
  - apply Forall_inv in Fb as Frx. apply Forall_inv_tail in Fb. apply Forall_inv in Fb as Fry. apply Forall_inv_tail in Fb.
    pose proof (contains_v_spec rx x Frx Fx) as Cx. pose proof (contains_v_spec ry y Fry Fy) as Cy.
    assert (Cz : match rest with [] => True | rz :: _ => range_contains_v rz z = true <-> rset rz (f64_R z) end).
    { destruct rest as [|rz rest]; [exact Logic.I|]. apply contains_v_spec; [apply Forall_inv in Fb; exact Fb|exact Fz]. }
    split.
    + intros H. exists rx, ry, rest. split; [reflexivity|].
      destruct (range_contains_v rx x); cbn [negb] in H; [|discriminate].
      destruct (range_contains_v ry y); cbn [negb] in H; [|discriminate].
      split; [now apply Cx|]. split; [now apply Cy|]. destruct rest as [|rz rest]; [exact Logic.I|].
      destruct (range_contains_v rz z); cbn [negb] in H; [left; now apply Cz|now right].
    + intros (rx' & ry' & rest' & E & Hx & Hy & Hz). injection E as <- <- <-.
      apply Cx in Hx. apply Cy in Hy. rewrite Hx, Hy. cbn [negb]. destruct rest as [|rz rest]; [reflexivity|].
      destruct (range_contains_v rz z); [reflexivity|]. cbn [negb]. destruct Hz as [Hz|Hz]; [|exact Hz]. now apply Cz in Hz.
Qed.

(** ** accessors *)
Lemma upd_same b i f : (i < length b)%nat -> nth_error (bnd_upd b i f) i = option_map f (nth_error b i).
Proof. revert i. induction b as [|r b IH]; intros [|i] H; cbn in *; try lia; [reflexivity|]. apply IH. lia. Qed.
Lemma upd_other b i j f : i <> j -> nth_error (bnd_upd b i f) j = nth_error b j.
Proof. revert i j. induction b as [|r b IH]; intros [|i] [|j] H; cbn in *; try reflexivity; try congruence. apply IH. congruence. Qed.
Lemma resize_old b n i : (i < length b)%nat -> nth_error (bnd_resize b n) i = nth_error b i.
Proof. intros H. unfold bnd_resize. now rewrite nth_error_app1. Qed.
Lemma resize_len b n : (length (bnd_resize b n) = Nat.max (length b) n)%nat.
Proof. unfold bnd_resize. rewrite app_length, repeat_length. lia. Qed.
(** Setting a minimum or maximum is read back, other dimensions and the other end
    keep their values, and missing dimensions are created. *)
Theorem C35_set_get : forall b i v,
  bounds_min (bounds_set_min b i v) i = v /\ bounds_max (bounds_set_max b i v) i = v /\
  ((i < length b)%nat -> bounds_max (bounds_set_min b i v) i = bounds_max b i /\ bounds_min (bounds_set_max b i v) i = bounds_min b i) /\
  (forall j, (j < length b)%nat -> j <> i ->
     bounds_min (bounds_set_min b i v) j = bounds_min b j /\ bounds_max (bounds_set_min b i v) j = bounds_max b j /\
     bounds_min (bounds_set_max b i v) j = bounds_min b j /\ bounds_max (bounds_set_max b i v) j = bounds_max b j) /\
  bounds_dimension (bounds_set_min b i v) = Nat.max (bounds_dimension b) (S i) /\
  bounds_dimension (bounds_set_max b i v) = Nat.max (bounds_dimension b) (S i).
Proof.
  intros b i v.
  assert (LB : (i < length (bnd_resize b (S i)))%nat) by (rewrite resize_len; lia).
  assert (LU : forall b i f, length (bnd_upd b i f) = length b).
  { clear. induction b as [|r b IH]; intros [|i] f; cbn; auto. }
  unfold bounds_min, bounds_max, bounds_set_min, bounds_set_max, bounds_dimension.
  rewrite !upd_same by exact LB. destruct (nth_error (bnd_resize b (S i)) i) as [r|] eqn:E.
  2:{ apply nth_error_None in E. lia. }
  cbn [option_map rg_min rg_max]. split; [reflexivity|]. split; [reflexivity|]. split.
  { intros H. rewrite resize_old in E by exact H. rewrite E. auto. }
  split; [|rewrite !LU, !resize_len; auto].
  intros j Hj N. rewrite !upd_other by congruence. rewrite resize_old by exact Hj. auto.
Qed.

(** ** what fails *)
Definition fz (n : Z) : f64 := f64_of_Z n.
Ltac bvalid := repeat (apply Forall_cons; [apply f64_le_R; vm_compute; reflexivity|]); apply Forall_nil.
Definition rg (a b : Z) : range := mkRange (fz a) (fz b).

(** Ranges sharing only their end point do not overlap; in particular a
    one-point range does not overlap itself. *)
Theorem C35_overlap_is_common_point_refuted : exists a b, range_fin a /\ range_fin b /\ range_valid a /\ range_valid b /\
  (exists x, rset a x /\ rset b x) /\ range_overlaps a b = false.
Proof.
  exists (rg 0 1), (rg 1 2). split; [split; reflexivity|]. split; [split; reflexivity|].
  assert (V : forall a b, f64_le (fz a) (fz b) = true -> f64_fin (fz a) = true -> f64_fin (fz b) = true -> f64_R (fz a) <= f64_R (fz b))
    by (intros; now apply f64_le_R).
  split; [apply V; vm_compute; reflexivity|]. split; [apply V; vm_compute; reflexivity|].
  split; [|vm_compute; reflexivity].
  exists (f64_R (fz 1)). unfold rset, rg. cbn [rg_min rg_max]. split; split; try apply Rle_refl; apply V; vm_compute; reflexivity.
Qed.
(** Bounds that are disjoint "intersect" when they overlap in one dimension. *)
Theorem C35_intersects_refuted : exists a b, length a = length b /\ box_fin a /\ box_fin b /\ box_valid a /\ box_valid b /\
  bounds_intersects a b = Ok true /\ ~ exists xs, boxset a xs /\ boxset b xs.
Proof.
  exists [rg 0 1; rg 0 1], [rg 5 6; rg 0 1].
  assert (V : forall a b, f64_le (fz a) (fz b) = true -> f64_fin (fz a) = true -> f64_fin (fz b) = true -> f64_R (fz a) <= f64_R (fz b))
    by (intros; now apply f64_le_R).
  split; [reflexivity|]. split; [repeat constructor|]. split; [repeat constructor|].
  split; [bvalid|]. split; [bvalid|].
  split; [vm_compute; reflexivity|]. intros (xs & H1 & H2). inversion H1 as [|? x ? ? X1 _]; subst. inversion H2 as [|? ? ? ? X2 _]; subst.
  unfold rset, rg in *. cbn [rg_min rg_max] in *.
  assert (L : f64_R (fz 1) < f64_R (fz 5)) by (apply f64_lt_R; vm_compute; reflexivity). lra.
Qed.
(** Growing a default (empty) range by a negative value gives a range that
    reaches up to the smallest positive double instead of that value. *)
Theorem C35_grow_from_empty_refuted : exists v, f64_fin v = true /\ range_empty range_default = true /\
  let r := range_grow_v range_default v in f64_eq (rg_min r) v = true /\ f64_eq (rg_max r) v = false /\ f64_lt v (rg_max r) = true.
Proof. exists (fz (-5)). vm_compute. auto. Qed.
(** The volume of any bounds with finite side lengths is 0. *)
Theorem C35_volume_refuted : forall b, (forall r, In r b -> f64_fin (range_length r) = true) -> f64_R (bounds_volume b) = 0.
Proof.
  intros b H. unfold bounds_volume.
  assert (G : forall o, f64_fin o = true -> f64_R o = 0 -> f64_R (fold_left (fun o r => f64_mul o (range_length r)) b o) = 0).
  { revert H. induction b as [|r b IH]; intros H o Fo Ho; cbn [fold_left]; [exact Ho|].
    assert (Hr : f64_fin (range_length r) = true) by (apply H; now left).
    pose proof (Bmult_correct 53 1024 eq_refl eq_refl binop_nan_pl64 mode_NE o (range_length r)) as C.
    change (B2R 53 1024 o) with (f64_R o) in C. rewrite Ho, Rmult_0_l in C.
    rewrite round_0 in C by (apply valid_rnd_N || apply valid_rnd_round_mode).
    rewrite Rabs_R0, Rlt_bool_true in C by apply bpow_gt_0. destruct C as (C1 & C2 & _).
    apply IH; [intros; apply H; now right| |exact C1].
    unfold f64_fin, f64_mul, b64_mult. rewrite C2. unfold f64_fin in *. now rewrite Fo, Hr. }
  apply G; [reflexivity|]. reflexivity.
Qed.
(** Equality is not symmetric when the dimensions differ: the empty bounds equals
    everything, the converse comparison reads past the end. *)
Theorem C35_equal_symmetric_refuted : exists a b, bounds_equal a b = Ok true /\ bounds_equal b a = UB UBOutOfBounds.
Proof. exists [], [rg 0 1]. split; reflexivity. Qed.
(** Scaling by a negative factor turns a range inside out. *)
Theorem C35_negative_scale_refuted : exists a d v, range_contains_v a v = true /\
  range_contains_v (range_scale a d) (f64_mul v d) = false.
Proof. exists (rg 1 2), (fz (-1)), (fz 1). vm_compute. auto. Qed.
(** A three-dimensional bounds without height accepts any height. *)
Theorem C35_flat_bounds_refuted : exists b x y z, length b = 3%nat /\ bounds_contains_xyz b x y z = true /\
  range_contains_v (nth 2 b range_default) z = false.
Proof. exists [rg 0 1; rg 0 1; rg 0 0], (fz 0), (fz 0), (fz 99). vm_compute. auto. Qed.

(** The hypotheses are met by an ordinary box. *)
Example C35_instance : box_fin [rg 0 10; rg (-5) 5] /\ box_valid [rg 0 10; rg (-5) 5] /\
  bounds_contains [rg 0 10; rg (-5) 5] [rg 1 2; rg 0 1] = Ok true /\
  bounds_contains_xyz [rg 0 10; rg (-5) 5] (fz 10) (fz (-5)) (fz 77) = true /\
  bounds_contains_xyz [rg 0 10; rg (-5) 5] (fz 11) (fz (-5)) (fz 77) = false.
Proof.
  split; [repeat constructor|]. split; [bvalid|].
  vm_compute. auto.
Qed.

Print Assumptions C35_contains_value. Print Assumptions C35_grow_bounds. Print Assumptions C35_contains_point.
Print Assumptions C35_set_get. Print Assumptions C35_intersects_refuted.

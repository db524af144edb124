From Coq Require Import ZArith List Bool Lia.
From Coq Require Import ZifyBool ZifyNat.
Import ListNotations.
From Verif Require Import Outcome Bytes Float64 Float64_Proofs Classif_Model Header_Model Point_Model Point_Spec Point_Api Point_Proofs
  Bounds_Model Bounds_Spec Filter_Model Filter_Spec Filter_Api.
Local Open Scope Z_scope.

Lemma list_loop_false v t l : list_loop t v false l = is_inclusion t && existsb (Z.eqb v) l.
Proof.
  induction l as [|x l IH]; cbn [list_loop existsb]; [now rewrite andb_false_r|].
  destruct (v =? x); cbn [orb]; [destruct t; reflexivity|exact IH].
Qed.
Lemma list_loop_true v t l : list_loop t v true l = match l with [] => true | _ => is_inclusion t && existsb (Z.eqb v) l end.
Proof.
  destruct l as [|x l]; cbn [list_loop existsb]; [reflexivity|]. destruct (v =? x); cbn [orb]; [destruct t; reflexivity|apply list_loop_false].
Qed.
Lemma list_loop_in v l : list_loop eInclusion v true l = true <-> listed l v.
Proof.
  rewrite list_loop_true. unfold listed. destruct l as [|x l]; [tauto|]. cbn [is_inclusion andb].
  rewrite existsb_exists. split.
  - intros (y & H & E). apply Z.eqb_eq in E. subst. now right.
  - intros [E|H]; [discriminate|]. exists v. split; [exact H|apply Z.eqb_refl].
Qed.
Lemma list_loop_ex v l : list_loop eExclusion v true l = true <-> l = [].
Proof. rewrite list_loop_true. destruct l; cbn [is_inclusion andb]; split; congruence. Qed.

(** thinning: the counter before call [i] *)
Definition thin_at (k i : Z) : thin := mkThin k (if i =? 0 then 0 else (i - 1) mod k + 1).
Lemma thin_step k i : 1 <= k < 2 ^ 32 -> 0 <= i ->
  thin_filter (thin_at k i) = (every_kth k i, thin_at k (i + 1)).
Proof.
  intros Hk Hi. unfold thin_filter, thin_at, every_kth. cbn [th_amount th_count].
  destruct (Z.eqb_spec (i + 1) 0); [lia|]. replace (i + 1 - 1) with i by lia.
  destruct (Z.eqb_spec i 0) as [->|N].
  - destruct (Z.eqb_spec k 0); [lia|]. rewrite Z.mod_0_l by lia. reflexivity.
  - pose proof (Z.mod_pos_bound (i - 1) k ltac:(lia)) as B.
    pose proof (Z.div_mod (i - 1) k ltac:(lia)) as D.
    set (q := (i - 1) / k) in *. set (m := (i - 1) mod k) in *.
    destruct (Z.eqb_spec k (m + 1)) as [E|E].
    + assert (M : i mod k = 0).
      { replace i with ((q + 1) * k) by lia. apply Z.mod_mul. lia. }
      rewrite M. destruct (Z.ltb_spec 0 i); [|lia]. cbn [andb Z.eqb]. f_equal.
    + assert (M : i mod k = m + 1).
      { symmetry. apply (Z.mod_unique i k q); lia. }
      rewrite M. destruct (Z.eqb_spec (m + 1) 0); [lia|]. rewrite andb_false_r. f_equal. f_equal. rewrite Z.mod_small by lia. reflexivity.
Qed.

(** on well-formed points no filter is undefined *)
Lemma wf_get p a s w sg : point_wf p -> attr_range (p_format p) a = Some (s, w, sg) -> exists v, api_get a p = Ok v /\ v = decode_bits sg w (bits_at (rec_int p) s w).
Proof. intros W R. eexists. split; [exact (api_get_spec p a s w sg W R)|reflexivity]. Qed.
Lemma wf_color p : point_wf p -> exists c, get_color p = Ok c.
Proof.
  intros W. destruct (attr_range (p_format p) ARed) as [[[s w] sg]|] eqn:E.
  - pose proof (api_get_spec p ARed s w sg W E) as H. cbn [api_get] in H. destruct (get_color p) as [c| |]; [exists c; reflexivity|discriminate|discriminate].
  - destruct (color_absent p W E) as (_ & H). exists color_black. exact H.
Qed.
Lemma wf_valid p : point_wf p -> exists sa, get_scan_angle p = Ok sa /\ is_valid p = Ok ((-90 <=? sa) && (sa <=? 90)).
Proof.
  intros W.
  pose proof (api_get_spec p AScanAngleRank 128 8 true W eq_refl) as H1. pose proof (api_get_spec p AFlightLineEdge 119 1 false W eq_refl) as H2.
  pose proof (api_get_spec p AScanDirection 118 1 false W eq_refl) as H3. pose proof (api_get_spec p ANumberOfReturns 115 3 false W eq_refl) as H4.
  pose proof (api_get_spec p AReturnNumber 112 3 false W eq_refl) as H5. cbn [api_get decode_bits] in *.
  eexists. split; [exact H1|]. unfold is_valid. rewrite H1, H2, H3, H4, H5. cbn [obind]. unfold eScanAngleRankMin, eScanAngleRankMax.
  pose proof (bits_at_range (rec_int p) 119 1 ltac:(lia)). pose proof (bits_at_range (rec_int p) 118 1 ltac:(lia)).
  pose proof (bits_at_range (rec_int p) 115 3 ltac:(lia)). pose proof (bits_at_range (rec_int p) 112 3 ltac:(lia)).
  generalize dependent (to_signed 8 (bits_at (rec_int p) 128 8)). intros sa _.
  destruct (Z.ltb_spec sa (-90)), (Z.ltb_spec 90 sa), (Z.leb_spec (-90) sa), (Z.leb_spec sa 90); cbn [orb andb]; try lia; try reflexivity.
  destruct (Z.ltb_spec 1 (bits_at (rec_int p) 119 1)); [lia|]. cbn [obind].
  destruct (Z.ltb_spec 1 (bits_at (rec_int p) 118 1)); [lia|]. cbn [obind].
  destruct (Z.ltb_spec 7 (bits_at (rec_int p) 115 3)); [lia|]. cbn [obind].
  destruct (Z.ltb_spec 7 (bits_at (rec_int p) 112 3)); [lia|]. reflexivity.
Qed.
Lemma wf_xyz p : point_wf p -> exists x y z, get_x p = Ok x /\ get_y p = Ok y /\ get_z p = Ok z.
Proof.
  intros W. pose proof (api_get_spec p ARawX 0 32 true W eq_refl) as H1. pose proof (api_get_spec p ARawY 32 32 true W eq_refl) as H2.
  pose proof (api_get_spec p ARawZ 64 32 true W eq_refl) as H3. cbn [api_get] in *. unfold get_x, get_y, get_z. rewrite H1, H2, H3. cbn [obind]. do 3 eexists. split; [reflexivity|split; reflexivity].
Qed.

Lemma keeps_ok f p : point_wf p -> stateless_filt f = true -> exists b, filt_run f p = Ok (b, f).
Proof.
  intros W S. destruct f as [t l|t b|th|t l lo|t|t lim]; cbn [filt_run stateless_filt] in *; try discriminate.
  - pose proof (api_get_spec p AClassification 120 8 false W eq_refl) as H. cbn [api_get] in H. unfold classification_filter. rewrite H. eexists. reflexivity.
  - unfold bounds_filter, bounds_contains_point. destruct (length b <? 2)%nat; [eexists; reflexivity|].
    destruct (wf_xyz p W) as (x & y & z & -> & -> & ->). eexists. reflexivity.
  - pose proof (api_get_spec p AReturnNumber 112 3 false W eq_refl) as H. pose proof (api_get_spec p ANumberOfReturns 115 3 false W eq_refl) as H'. cbn [api_get] in *.
    unfold return_filter. destruct lo; rewrite H; cbn [obind]; try rewrite H'; eexists; reflexivity.
  - unfold validation_filter. destruct (wf_valid p W) as (sa & _ & ->). eexists. reflexivity.
  - unfold color_filter. destruct (wf_color p W) as (c & ->). eexists. reflexivity.
Qed.

Definition verdict (f : filt) (p : point) : bool := match filt_keeps f p with Ok b => b | _ => false end.
Lemma keeps_verdict f p : point_wf p -> stateless_filt f = true -> filt_run f p = Ok (verdict f p, f) /\ filt_keeps f p = Ok (verdict f p).
Proof. intros W S. destruct (keeps_ok f p W S) as (b & E). unfold verdict, filt_keeps. rewrite E. auto. Qed.

Lemma filter_point_stateless fs p : point_wf p -> forallb stateless_filt fs = true ->
  filter_point fs p = Ok (forallb (fun f => verdict f p) fs, fs).
Proof.
  intros W. induction fs as [|f fs IH]; intros S; cbn [filter_point forallb] in *; [reflexivity|].
  apply andb_true_iff in S as (S1 & S2). destruct (keeps_verdict f p W S1) as (-> & _). cbn [obind].
  destruct (verdict f p); cbn [negb andb]; [|reflexivity]. rewrite (IH S2). reflexivity.
Qed.
Lemma filter_points_stateless fs ps : Forall point_wf ps -> forallb stateless_filt fs = true ->
  filter_points fs ps = Ok (filter (fun p => forallb (fun f => verdict f p) fs) ps).
Proof.
  intros W S. induction W as [|p ps Hp W IH]; cbn [filter_points filter]; [reflexivity|].
  rewrite filter_point_stateless by assumption. cbn [obind]. rewrite IH. reflexivity.
Qed.
Lemma filter_point_thin fs k i p : point_wf p -> forallb stateless_filt fs = true -> 1 <= k < 2 ^ 32 -> 0 <= i ->
  filter_point (fs ++ [FThin (thin_at k i)]) p =
    if forallb (fun f => verdict f p) fs then Ok (every_kth k i, fs ++ [FThin (thin_at k (i + 1))])
    else Ok (false, fs ++ [FThin (thin_at k i)]).
Proof.
  intros W S Hk Hi. induction fs as [|f fs IH]; cbn [filter_point forallb app filt_run] in *.
  - rewrite thin_step by assumption. cbn [obind]. destruct (every_kth k i); reflexivity.
  - apply andb_true_iff in S as (S1 & S2). destruct (keeps_verdict f p W S1) as (-> & _). cbn [obind].
    destruct (verdict f p); cbn [negb andb]; [|reflexivity]. rewrite (IH S2). destruct (forallb (fun f : filt => verdict f p) fs); reflexivity.
Qed.
Lemma filter_points_thin_from fs k ps : Forall point_wf ps -> forallb stateless_filt fs = true -> 1 <= k < 2 ^ 32 -> forall i, 0 <= i ->
  filter_points (fs ++ [FThin (thin_at k i)]) ps = Ok (keep_at (every_kth k) i (filter (fun p => forallb (fun f => verdict f p) fs) ps)).
Proof.
  intros W S Hk. induction W as [|p ps Hp W IH]; intros i Hi; cbn [filter_points filter]; [reflexivity|].
  rewrite filter_point_thin by assumption. destruct (forallb (fun f => verdict f p) fs); cbn [obind keep_at].
  - rewrite IH by lia. cbn [obind]. reflexivity.
  - rewrite IH by lia. reflexivity.
Qed.

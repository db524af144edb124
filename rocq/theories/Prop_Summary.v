(** C44: the point summary.  Vocabulary: Summary_Spec.v. *)
From Coq Require Import ZArith List Bool Lia String.
Import ListNotations.
From Verif Require Import Outcome Bytes Float64 Classif_Model Header_Model Point_Model Point_Spec Point_Api Point_Proofs
  Point_Hist Coord_Api Coord_Header Summary_Model Summary_Spec Summary_Proofs IO_Samples Prop_Coord Prop_Filter.
Local Open Scope Z_scope.
Local Notation length := List.length (only parsing).

(** A new summary, possibly given the header of the points to come. *)
Definition started (p : point) (u : summary) : Prop :=
  exists h0, u = summary_new h0 \/ exists h, fitting_header h p /\ u = summary_set_header (summary_new h0) h.
Definition report_on (u : summary) (ps : list point) : outcome report :=
  let! u1 := summary_feed u ps in summary_report u1.

Lemma started_feed fmt u p ps : started p u -> Forall (usual_point fmt) (p :: ps) ->
  exists u', summary_feed u (p :: ps) = Ok u' /\ inv fmt u' (p :: ps).
Proof.
  intros (h0 & [-> | (h & Fh & ->)]) F.
  - apply feed_all; [apply new_counts|reflexivity|exact F|discriminate].
  - apply feed_all; [apply new_header_counts|reflexivity|exact F|intros _; exact Fh].
Qed.

Lemma values_map {V} (get : point -> outcome V) f ps : Forall (fun p => get p = Ok (f p)) ps -> values_of get ps (map f ps).
Proof. induction 1; constructor; auto. Qed.
Lemma values_unique {V} (get : point -> outcome V) ps : forall vs ws, values_of get ps vs -> values_of get ps ws -> vs = ws.
Proof.
  induction ps as [|p ps IH]; intros vs ws H1 H2; inversion H1; subst; inversion H2; subst; [reflexivity|].
  f_equal; [congruence|]. now apply IH.
Qed.
Lemma usual_view fmt ps a : Forall (usual_point fmt) ps -> attr_range fmt a <> None -> values_of (api_get a) ps (vw a ps).
Proof.
  intros F R. apply values_map. eapply Forall_impl; [|exact F]. intros p (W & Fp & _).
  destruct (wf_api_get p a W ltac:(rewrite Fp; exact R)) as (? & ? & ? & _ & E & _). exact E.
Qed.

(** For every non-empty sequence of points of one format the report gives, for
    every quantity the format stores, the smallest and the largest value that
    occurred.  (In particular nothing throws.) *)
Theorem C44_extremes : forall fmt p ps u, Forall (usual_point fmt) (p :: ps) -> started p u ->
  exists r, report_on u (p :: ps) = Ok r /\
    (forall q vs, summarised q -> present fmt q -> values_of (q_get q) (p :: ps) vs ->
       exists lo hi, q_get q (k_min r) = Ok lo /\ q_get q (k_max r) = Ok hi /\ least vs lo /\ greatest vs hi) /\
    (forall ts, attr_range fmt ATime <> None -> values_of get_time (p :: ps) ts ->
       exists lo hi, get_time (k_min r) = Ok lo /\ get_time (k_max r) = Ok hi /\ least_f ts lo /\ greatest_f ts hi).
Proof.
  intros fmt p ps u F St. destruct (started_feed fmt u p ps St F) as (u' & E & I). unfold report_on. rewrite E. cbn [obind].
  destruct I as (C & _ & _ & _ & q0 & r0 & mn & mx & lo & hi & F1 & F2 & E1 & E2 & S1 & S2 & L & H).
  unfold summary_report. rewrite E1, E2. eexists. split; [reflexivity|]. cbn [k_min k_max].
  assert (Gmn : forall a, a <> AScanFlags -> attr_range fmt a <> None -> api_get a mn = Ok (lo a)) by (intros; apply (st_get q0 mn lo a S1); congruence).
  assert (Gmx : forall a, a <> AScanFlags -> attr_range fmt a <> None -> api_get a mx = Ok (hi a)) by (intros; apply (st_get r0 mx hi a S2); congruence).
  destruct L as (L1 & L2 & L3). destruct H as (H1 & H2 & H3). split.
  - intros q vs Q P V. destruct q as [a|]; cbn [q_get present summarised] in *.
    + rewrite (values_unique _ _ _ _ V (usual_view fmt _ a F P)). exists (lo a), (hi a).
      assert (Na : a <> AScanFlags) by (intros ->; exact Q).
      assert (K : plain a = true \/ is_color a = true /\ attr_range fmt a <> None) by (destruct a; cbn; tauto).
      split; [now apply Gmn|]. split; [now apply Gmx|]. split; [now apply L1|now apply H1].
    + assert (V2 : values_of (fun p => let! c := get_classification p in Ok (class_get c)) (p :: ps) (map (fun p => class_get (view_of p AClassification)) (p :: ps))).
      { apply values_map. eapply Forall_impl; [|exact F]. intros x (W & _). rewrite (vw_get x AClassification W ltac:(discriminate) : get_classification x = _). reflexivity. }
      rewrite (values_unique _ _ _ _ V V2). pose proof (Gmn AClassification ltac:(discriminate) ltac:(discriminate)) as G1. pose proof (Gmx AClassification ltac:(discriminate) ltac:(discriminate)) as G2.
      cbn [api_get] in G1, G2. rewrite G1, G2. cbn [obind]. eexists _, _. split; [reflexivity|]. split; [reflexivity|]. split; [exact L2|exact H2].
  - intros ts R V.
    assert (V2 : values_of get_time (p :: ps) (map (fun p => fb (view_of p ATime)) (p :: ps))).
    { apply values_map. eapply Forall_impl; [|exact F]. intros x (W & Fx & _). destruct (wf_api_get x ATime W ltac:(rewrite Fx; exact R)) as (? & ? & ? & _ & Ex & _).
      apply (omap_time x _ Ex). }
    rewrite (values_unique _ _ _ _ V V2). pose proof (Gmn ATime ltac:(discriminate) R) as G1. pose proof (Gmx ATime ltac:(discriminate) R) as G2.
    eexists _, _. split; [apply (omap_time mn _ G1)|]. split; [apply (omap_time mx _ G2)|]. split; [now apply L3|now apply H3].
Qed.
Print Assumptions C44_extremes.

(** The (id, count) list shows exactly the ids [lo..hi-1] that occur among [vs],
    each with its number of occurrences as an unsigned 32-bit integer. *)
Definition histogram (lo hi : Z) (vs : list Z) (l : list (Z * Z)) : Prop :=
  forall i n, In (i, n) l <-> lo <= i < hi /\ n = number_of (Z.eqb i) vs mod 2 ^ 32 /\ n <> 0.

(** Counts, as 32-bit counters.  Points by return are only claimed when some
    point has a return number of at least 1 (see [C44_no_returns_refuted]). *)
Theorem C44_counts : forall fmt p ps u cs rns nrs, Forall (usual_point fmt) (p :: ps) -> started p u ->
  values_of get_classification (p :: ps) cs -> values_of get_return_number (p :: ps) rns ->
  values_of get_number_of_returns (p :: ps) nrs ->
  exists r, report_on u (p :: ps) = Ok r /\
    k_count r = Z.of_nat (length (p :: ps)) mod 2 ^ 32 /\
    histogram 0 32 (map class_get cs) (k_classes r) /\
    k_synthetic r = number_of class_is_synthetic cs mod 2 ^ 32 /\
    k_withheld r = number_of class_is_withheld cs mod 2 ^ 32 /\
    k_keypoint r = number_of class_is_keypoint cs mod 2 ^ 32 /\
    histogram 0 8 nrs (k_pulses r) /\
    ((exists i, 1 <= i < 8 /\ number_of (Z.eqb i) rns mod 2 ^ 32 <> 0) -> histogram 1 8 rns (k_returns r)).
Proof.
  intros fmt p ps u cs rns nrs F St Vc Vr Vn. destruct (started_feed fmt u p ps St F) as (u' & E & I). unfold report_on. rewrite E. cbn [obind].
  destruct I as (C & _ & _ & _ & q0 & r0 & mn & mx & lo & hi & _ & _ & E1 & E2 & _).
  rewrite (values_unique _ _ _ _ Vc (usual_view fmt (p :: ps) AClassification F ltac:(discriminate))) in *.
  rewrite (values_unique _ _ _ _ Vr (usual_view fmt (p :: ps) AReturnNumber F ltac:(discriminate))) in *.
  rewrite (values_unique _ _ _ _ Vn (usual_view fmt (p :: ps) ANumberOfReturns F ltac:(discriminate))) in *.
  destruct C as (C1 & T1 & C2 & C3 & C4 & T2 & T3).
  unfold summary_report. rewrite E1, E2. eexists. split; [reflexivity|]. cbn [k_count k_classes k_synthetic k_withheld k_keypoint k_pulses k_returns].
  assert (Hist : forall n vs l, tally n vs l -> histogram 0 (Z.of_nat n) vs (nonzero_from 0 l)).
  { intros n vs l (Ll & T) i m. rewrite nonzero_from_spec, Z.sub_0_r, Z.add_0_l, Ll. split; intros (B & Em & Nm); (split; [exact B|]); (split; [|exact Nm]).
    - rewrite <- T by exact B. exact Em.
    - rewrite T by exact B. exact Em. }
  split; [exact C1|]. split; [apply (Hist 32%nat _ _ T1)|]. split; [exact C2|]. split; [exact C3|]. split; [exact C4|]. split; [apply (Hist 8%nat _ _ T3)|].
  intros (i0 & B0 & N0). destruct T2 as (L2 & T2). destruct (u_returns u') as [|x l] eqn:El; [discriminate L2|]. injection L2 as L2.
  assert (K : histogram 1 8 (vw AReturnNumber (p :: ps)) (nonzero_from 1 l)).
  { intros i m. rewrite nonzero_from_spec, L2. split; intros (B & Em & Nm); (split; [lia|]); (split; [|exact Nm]).
    - rewrite <- T2 by lia. replace (Z.to_nat i) with (S (Z.to_nat (i - 1))) by lia. exact Em.
    - rewrite <- T2 in Em by lia. replace (Z.to_nat i) with (S (Z.to_nat (i - 1))) in Em by lia. exact Em. }
  destruct (nonzero_from 1 l) as [|y l'] eqn:En; [|exact K]. exfalso.
  destruct (K i0 (number_of (Z.eqb i0) (vw AReturnNumber (p :: ps)) mod 2 ^ 32)) as (_ & K2). apply K2. auto.
Qed.
Print Assumptions C44_counts.

(** ** samples: format 3 points of [sample_header] with the class byte set *)
Lemma class_point_usual c : is_byte c -> usual_point 3 (class_point c).
Proof.
  intros B. split; [now apply class_point_wf|]. split; [reflexivity|]. split; (split; [discriminate|reflexivity]).
Qed.
Definition three_points : list point := [class_point 2; class_point 130; class_point 5].
Example C44_extremes_example : Forall (usual_point 3) three_points /\ started (class_point 2) (summary_new (p_hdr (class_point 0))) /\
  started (class_point 2) (summary_set_header (summary_new (p_hdr (class_point 0))) (p_hdr (class_point 2))) /\
  values_of (q_get QClass) three_points [2; 2; 5] /\ least [2; 2; 5] 2 /\ greatest [2; 2; 5] 5.
Proof.
  split; [apply Forall_cons; [|apply Forall_cons; [|apply Forall_cons; [|apply Forall_nil]]]; apply class_point_usual; unfold is_byte; lia|].
  split; [eexists; left; reflexivity|]. split.
  { eexists. right. eexists. split; [|reflexivity]. split; [reflexivity|]. split; [reflexivity|].
    unfold scaling_differs. rewrite !Float64_Proofs.compare_distance_refl; try reflexivity; vm_compute; reflexivity. }
  split; [repeat constructor|]. split; (split; [cbn; auto|]); intros v; cbn; intros [<-|[<-|[<-|[]]]]; lia.
Qed.

(** If no point has a return number of 1 or more, all points are reported as
    first returns. *)
Theorem C44_no_returns_refuted : forall fmt p ps u rns, Forall (usual_point fmt) (p :: ps) -> started p u ->
  values_of get_return_number (p :: ps) rns -> (forall i, 1 <= i < 8 -> number_of (Z.eqb i) rns = 0) ->
  exists r, report_on u (p :: ps) = Ok r /\ k_returns r = [(1, Z.of_nat (length (p :: ps)) mod 2 ^ 32)].
Proof.
  intros fmt p ps u rns F St Vr N. destruct (started_feed fmt u p ps St F) as (u' & E & I). unfold report_on. rewrite E. cbn [obind].
  destruct I as (C & _ & _ & _ & q0 & r0 & mn & mx & lo & hi & _ & _ & E1 & E2 & _).
  rewrite (values_unique _ _ _ _ Vr (usual_view fmt (p :: ps) AReturnNumber F ltac:(discriminate))) in *.
  destruct C as (C1 & T1 & C2 & C3 & C4 & T2 & T3).
  unfold summary_report. rewrite E1, E2. eexists. split; [reflexivity|]. cbn [k_returns].
  destruct T2 as (L2 & T2). destruct (u_returns u') as [|x l] eqn:El; [discriminate L2|]. injection L2 as L2.
  destruct (nonzero_from 1 l) as [|[i n] l'] eqn:En; [now rewrite C1|]. exfalso.
  assert (K : In (i, n) (nonzero_from 1 l)) by (rewrite En; now left). apply nonzero_from_spec in K. rewrite L2 in K. destruct K as (B & Em & Nm).
  pose proof (T2 i ltac:(lia)) as T. replace (Z.to_nat i) with (S (Z.to_nat (i - 1))) in T by lia. cbn [nth] in T. rewrite <- Em in T.
  rewrite N in T by lia. apply Nm. rewrite T. reflexivity.
Qed.
Print Assumptions C44_no_returns_refuted.
Example C44_no_returns_example : values_of get_return_number three_points [0; 0; 0] /\ forall i, 1 <= i < 8 -> number_of (Z.eqb i) [0; 0; 0] = 0.
Proof.
  split; [repeat constructor|]. intros i B. assert (E : i = 1 \/ i = 2 \/ i = 3 \/ i = 4 \/ i = 5 \/ i = 6 \/ i = 7) by lia.
  destruct E as [->|[->|[->|[->|[->|[->| ->]]]]]]; reflexivity.
Qed.

(** Without points there is nothing to report or copy: null pointers. *)
Theorem C44_empty_refuted : forall h0, report_on (summary_new h0) [] = UB UBNull /\ summary_copy (summary_new h0) = UB UBNull.
Proof. intros. split; reflexivity. Qed.
Print Assumptions C44_empty_refuted.

(** A header given after points were fed discards the extremes collected so far. *)
Theorem C44_late_header_refuted : exists p u, usual_point 3 p /\ started p u /\
  (let! u1 := summary_feed u [p] in let! r := summary_report (summary_set_header u1 (p_hdr p)) in
   let! lo := q_get QClass (k_min r) in let! hi := q_get QClass (k_max r) in Ok (k_count r, lo, hi)) = Ok (1, 0, 0) /\
  q_get QClass p = Ok 5.
Proof.
  exists (class_point 5), (summary_new (sample_header 2)). split; [apply class_point_usual; unfold is_byte; lia|]. split; [eexists; left; reflexivity|].
  split; vm_compute; reflexivity.
Qed.
Print Assumptions C44_late_header_refuted.

(** A header of another format than the points: the summary reads past the end
    of its own records. *)
Theorem C44_other_format_refuted : exists h p, usual_point 3 p /\ get_format h = 0 /\
  report_on (summary_set_header (summary_new h) h) [p] = UB UBOutOfBounds.
Proof.
  exists (scaled_header 0 f64_one f64_zero), (class_point 5). split; [apply class_point_usual; unfold is_byte; lia|]. split; vm_compute; reflexivity.
Qed.
Print Assumptions C44_other_format_refuted.

(** A header with another scale than the points: the first point is stored
    rescaled, and its rescaled integer stays as an extreme although no point has
    it. *)
Theorem C44_other_scale_refuted : exists h p, usual_point 0 p /\ get_format h = 0 /\ get_raw_x p = Ok 1000 /\
  (let! r := report_on (summary_set_header (summary_new h) h) [p; p] in let! lo := get_raw_x (k_min r) in Ok lo) = Ok 500.
Proof.
  exists (scaled_header 0 (f64_of_Z 2) f64_zero), (raw_point (scaled_header 0 f64_one f64_zero) 1000). split; [|split; [|split]].
  - split; [|split; [|split]].
    + split; [vm_compute; split; discriminate|]. split; [apply bytes_okb_ok; vm_compute; reflexivity|vm_compute; discriminate].
    + reflexivity.
    + split; [vm_compute; discriminate|intros H; exfalso; apply H; reflexivity].
    + split; [vm_compute; discriminate|intros H; exfalso; apply H; reflexivity].
  - vm_compute; reflexivity.
  - vm_compute; reflexivity.
  - vm_compute; reflexivity.
Qed.
Print Assumptions C44_other_scale_refuted.

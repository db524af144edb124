(** The points a summary shows are records like those of the file, and what their
    property trees hold. *)
From Coq Require Import ZArith List Bool Lia Lra String Ascii Reals.
From Coq Require Import ZifyBool ZifyNat.
Import ListNotations.
From Flocq Require Import Core BinarySingleNaN Binary Bits.
From Verif Require Import Outcome Bytes Float64 Float64_Proofs Classif_Model Schema_Model Schema_Spec Schema_Proofs Header_Model Point_Model Point_Spec Point_Api Point_Proofs Point_Hist
  Coord_Api Coord_Proofs Coord_Header Stream_Model IO_Spec Reader_Proofs Reader_Model Reader_Spec Reader_Schema Reader_Api Reader_Open Reader_Hist Rewrite_Proofs Prop_Rewrite Prop_Reader Writer_Api
  Summary_Model Summary_Spec Summary_Proofs Prop_Summary Text_Model Text_Proofs Las2las_Spec Las2las_Model Las2las_Summary Las2las_Points Las2las_Main Las2las_Loop Las2las_Split
  Cols_Spec Cols_Proofs Prop_Cols Txt_Model Txt_Spec Txt_Proofs Lasinfo_Spec Lasinfo_Model.
Local Open Scope string_scope.
Local Open Scope list_scope.
Local Open Scope Z_scope.
Local Notation length := List.length (only parsing).

(** ** The property tree of a record *)
Definition record_tree (F : list Z) (rec : list Z) : ptree_of_point :=
  let n c := whole_of F c rec in
  mkPtp (real_of F "x"%char rec) (real_of F "y"%char rec) (real_of F "z"%char rec) (real_of F "t"%char rec)
    (n "i"%char) (n "r"%char) (n "n"%char) (n "d"%char) (n "a"%char) (n "e"%char) (n "u"%char) (n "p"%char)
    (field (fmt F) AClassification rec) (n "R"%char) (n "G"%char) (n "B"%char).

Section Record_values.
Variables (F : list Z) (h : header) (rec : list Z).
Hypothesis H : of_file F h rec.
Let p := mkPoint rec h.
Lemma unsigned_value a : (exists s w, attr_range (u_at F 104 1) a = Some (s, w, false)) -> api_get a p = Ok (field (fmt F) a rec).
Proof. intros (s & w & E). destruct (field_is F h rec a H ltac:(congruence)) as (s' & w' & sg & E' & Q). rewrite E in E'. injection E' as <- <- <-. exact Q. Qed.
Lemma time_value : get_time p = Ok (f64_of_bits (field (fmt F) ATime rec)).
Proof.
  destruct (attr_range (u_at F 104 1) ATime) as [r|] eqn:R.
  - assert (Q : exists s w, attr_range (u_at F 104 1) ATime = Some (s, w, false)) by (clear - R; cbn [attr_range] in *; destruct (_ || _); [eauto|discriminate]).
    apply (omap_time p _ (unsigned_value ATime Q)).
  - pose proof H as (W & FM & _). destruct (time_absent _ W) as (_ & T). { unfold p_format. cbn [p_hdr]. now rewrite FM. }
    unfold p. rewrite T. unfold field, fmt. rewrite R. vm_compute. reflexivity.
Qed.
Lemma color_value' : get_color p = Ok (mkColor (field (fmt F) ARed rec) (field (fmt F) AGreen rec) (field (fmt F) ABlue rec)).
Proof.
  destruct (attr_range (u_at F 104 1) ARed) as [r|] eqn:R.
  - assert (Q : forall a, is_color a = true -> exists s w, attr_range (u_at F 104 1) a = Some (s, w, false)).
    { intros a C. clear - R C. destruct a; try discriminate C; cbn [attr_range] in *; repeat destruct (_ =? _); eauto; discriminate. }
    pose proof (unsigned_value ARed (Q ARed eq_refl)) as G1. pose proof (unsigned_value AGreen (Q AGreen eq_refl)) as G2. pose proof (unsigned_value ABlue (Q ABlue eq_refl)) as G3.
    cbn [api_get] in *. destruct (get_color p) as [[x y z]|e|u]; try discriminate. cbn [omap obind c_red c_green c_blue] in *.
    apply Writer_Append.Ok_inj in G1, G2, G3. now rewrite G1, G2, G3.
  - pose proof H as (W & FM & _). destruct (color_absent _ W) as (_ & T). { unfold p_format. cbn [p_hdr]. now rewrite FM. }
    unfold p. rewrite T. unfold field, fmt. rewrite R.
    assert (R2 : attr_range (u_at F 104 1) AGreen = None /\ attr_range (u_at F 104 1) ABlue = None) by (clear - R; cbn [attr_range] in *; repeat destruct (_ =? _); try discriminate; auto).
    rewrite (proj1 R2), (proj2 R2). reflexivity.
Qed.
Lemma class_value : get_classification p = Ok (field (fmt F) AClassification rec).
Proof. pose proof (unsigned_value AClassification ltac:(eexists _, _; reflexivity)) as X. exact X. Qed.
Lemma tree_value : point_ptree p = Ok (record_tree F rec).
Proof.
  unfold point_ptree.
  pose proof (coord_is F h rec AxX H) as X. pose proof (coord_is F h rec AxY H) as Y. pose proof (coord_is F h rec AxZ H) as Z.
  pose proof (raw_is F h rec AxX H) as RX. pose proof (raw_is F h rec AxY H) as RY. pose proof (raw_is F h rec AxZ H) as RZ. cbn [get_coord raw_attr api_get] in *. fold p in X, Y, Z, RX, RY, RZ.
  rewrite X, Y, Z, RX, RY, RZ, time_value. cbn [obind].
  pose proof (unsigned_value AIntensity ltac:(eexists _, _; reflexivity)) as G. cbn [api_get] in G. rewrite G. clear G.
  pose proof (unsigned_value AReturnNumber ltac:(eexists _, _; reflexivity)) as G. cbn [api_get] in G. rewrite G. clear G.
  pose proof (unsigned_value ANumberOfReturns ltac:(eexists _, _; reflexivity)) as G. cbn [api_get] in G. rewrite G. clear G.
  pose proof (unsigned_value AScanDirection ltac:(eexists _, _; reflexivity)) as G. cbn [api_get] in G. rewrite G. clear G.
  pose proof H as (W & _). pose proof (api_get_spec _ AScanAngleRank 128 8 true W eq_refl) as G. cbn [api_get] in G. fold p in G. rewrite G. clear G.
  pose proof (unsigned_value AFlightLineEdge ltac:(eexists _, _; reflexivity)) as G. cbn [api_get] in G. rewrite G. clear G.
  pose proof (unsigned_value AUserData ltac:(eexists _, _; reflexivity)) as G. cbn [api_get] in G. rewrite G. clear G.
  pose proof (unsigned_value APointSourceId ltac:(eexists _, _; reflexivity)) as G. cbn [api_get] in G. rewrite G. clear G.
  rewrite class_value, color_value'. reflexivity.
Qed.
End Record_values.

(** ** The summary of points of the header it was given *)
Definition framed (h : header) (u : summary) : Prop :=
  u_header u = h /\ u_have_header u = true /\
  exists mn mx, u_min u = Some mn /\ u_max u = Some mx /\ point_wf mn /\ point_wf mx /\ p_hdr mn = h /\ p_hdr mx = h.

Lemma add_framed fmt h u ps p : inv fmt u ps -> framed h u -> usual_point fmt p -> exists u', summary_add u p = Ok u' /\ inv fmt u' (ps ++ [p]) /\ framed h u'.
Proof.
  intros (C & Fi & Ht & Hc & q0 & r0 & mn & mx & lo & hi & F1 & F2 & E1 & E2 & S1 & S2 & L & Hh) (UH & UB & mn0 & mx0 & M1 & M2 & _ & _ & P1 & P2) (W & Fp & _).
  assert (mn0 = mn /\ mx0 = mx) as [-> ->] by (split; congruence).
  destruct (minmax_st (u_have_time u) (u_have_color u) p q0 mn lo r0 mx hi W S1 S2) as (mn' & mx' & M & S1' & S2'); try congruence; [rewrite Fp; assumption ..|].
  pose proof C as (_ & T1 & _ & _ & _ & T2 & T3).
  destruct (tally_snoc _ _ _ (class_get (view_of p AClassification)) T1) as (cl & I1 & T1'); [apply class_get_range|].
  destruct (tally_snoc _ _ _ (view_of p AReturnNumber) T2) as (rt & I2 & T2'); [apply small_field; [exact W|cbn; auto]|].
  destruct (tally_snoc _ _ _ (view_of p ANumberOfReturns) T3) as (pu & I3 & T3'); [apply small_field; [exact W|cbn; auto]|].
  eexists. split; [|split].
  - eapply add_eq; [exact W|rewrite Fi, E1, E2; reflexivity|reflexivity|exact M|exact I1|exact I2|exact I3].
  - split; [|split; [|split; [|split]]].
    + apply counts_snoc; assumption.
    + reflexivity.
    + exact Ht.
    + exact Hc.
    + exists q0, r0, mn', mx', (lowf (view_of p) lo), (highf (view_of p) hi). split; [exact F1|]. split; [exact F2|]. split; [reflexivity|]. split; [reflexivity|].
      split; [exact S1'|]. split; [exact S2'|]. split; [now apply lows_snoc|now apply highs_snoc].
  - split; [exact UH|]. split; [exact UB|]. exists mn', mx'. split; [reflexivity|]. split; [reflexivity|].
    destruct S1 as (_ & X1 & _). destruct S2 as (_ & X2 & _). destruct S1' as (Y1 & Z1 & _). destruct S2' as (Y2 & Z2 & _).
    split; [exact Y1|]. split; [exact Y2|]. split; congruence.
Qed.

Lemma reset_scaling h : (let '(sx, sy, sz) := h_scale h in let '(ox, oy, oz) := h_offset h in set_offset (set_scale h sx sy sz) ox oy oz) = h.
Proof. destruct h. cbn [Header_Model.h_scale Header_Model.h_offset]. destruct h_scale as [[? ?] ?], h_offset as [[? ?] ?]. reflexivity. Qed.

Lemma first_framed fmt h h0 p : usual_point fmt p -> p_hdr p = h -> fitting_header h p ->
  exists u', summary_add (summary_set_header (summary_new h0) h) p = Ok u' /\ inv fmt u' [p] /\ framed h u'.
Proof.
  intros U Hp Hf. pose proof U as (W & Fp & HT & HC). set (u := summary_set_header (summary_new h0) h).
  assert (FP : first_point u p = Ok (p, p, h, has_dim (p_hdr p) "Red" && has_dim (p_hdr p) "Green" && has_dim (p_hdr p) "Blue", has_dim (p_hdr p) "Time")).
  { unfold first_point. change (u_have_header u) with true. change (u_header u) with h. rewrite (fitting_move _ _ W Hf). cbn [obind]. rewrite Hp.
    pose proof (reset_scaling h) as R. destruct (h_scale h) as [[sx sy] sz]. destruct (h_offset h) as [[ox oy] oz]. rewrite R.
    rewrite Z.eqb_refl. cbn [negb obind p_data]. destruct p as [d hp]. cbn [p_data p_hdr] in *. subst hp. reflexivity. }
  assert (Sq : st p p (view_of p)) by (apply st_refl; [exact W|now apply view_agrees]).
  destruct (minmax_st _ _ p p p (view_of p) p p (view_of p) W Sq Sq eq_refl eq_refl
    ltac:(rewrite Fp; exact HT) ltac:(rewrite Fp; exact HC)) as (mn' & mx' & M & S1' & S2').
  pose proof (new_header_counts h0 h) as C. pose proof C as (_ & T1 & _ & _ & _ & T2 & T3).
  destruct (tally_snoc _ _ _ (class_get (view_of p AClassification)) T1) as (cl & I1 & T1'); [apply class_get_range|].
  destruct (tally_snoc _ _ _ (view_of p AReturnNumber) T2) as (rt & I2 & T2'); [apply small_field; [exact W|cbn; auto]|].
  destruct (tally_snoc _ _ _ (view_of p ANumberOfReturns) T3) as (pu & I3 & T3'); [apply small_field; [exact W|cbn; auto]|].
  eexists. split; [|split].
  - eapply add_eq; [exact W|exact FP|reflexivity|exact M|exact I1|exact I2|exact I3].
  - split; [|split; [|split; [|split]]].
    + change [p] with ([] ++ [p]). apply counts_snoc; assumption.
    + reflexivity.
    + exact HT.
    + exact HC.
    + exists p, p, mn', mx', (lowf (view_of p) (view_of p)), (highf (view_of p) (view_of p)). split; [exact Fp|]. split; [exact Fp|]. split; [reflexivity|]. split; [reflexivity|].
      split; [exact S1'|]. split; [exact S2'|]. split; [apply lows_one|apply highs_one].
  - split; [reflexivity|]. split; [reflexivity|]. exists mn', mx'. split; [reflexivity|]. split; [reflexivity|].
    destruct S1' as (Y1 & Z1 & _). destruct S2' as (Y2 & Z2 & _). split; [exact Y1|]. split; [exact Y2|]. split; congruence.
Qed.

Lemma feed_framed fmt h ps' : forall u ps, inv fmt u ps -> framed h u -> Forall (usual_point fmt) ps' ->
  exists u', summary_feed u ps' = Ok u' /\ framed h u'.
Proof.
  induction ps' as [|p ps' IH]; intros u ps I Fr F; [exists u; auto|].
  destruct (add_framed fmt h u ps p I Fr (Forall_inv F)) as (u1 & E & I1 & Fr1). cbn [summary_feed]. rewrite E. cbn [obind].
  destruct (IH u1 _ I1 Fr1 (Forall_inv_tail F)) as (u2 & E2 & Fr2). eauto.
Qed.
Lemma feed_all_framed fmt h h0 p ps : Forall (usual_point fmt) (p :: ps) -> p_hdr p = h -> fitting_header h p ->
  exists u', summary_feed (summary_set_header (summary_new h0) h) (p :: ps) = Ok u' /\ framed h u'.
Proof.
  intros F Hp Hf. destruct (first_framed fmt h h0 p (Forall_inv F) Hp Hf) as (u1 & E & I & Fr). cbn [summary_feed]. rewrite E. cbn [obind].
  exact (feed_framed fmt h ps u1 [p] I Fr (Forall_inv_tail F)).
Qed.

(** ** The loop *)
Lemma check_feeds {FS} me (flt : option (FS -> point -> bool * FS)) fuel : forall r fs u sp ds r1 fs1,
  read_all flt fuel r fs = Ok (ds, true, r1, fs1) ->
  check_points me flt fuel r fs (mkSo u sp) =
  (let! u' := summary_feed u (points_of (r_hdr r) ds) in Ok (mkSo u' (if u_first u then match ds with [] => sp | _ => me end else sp))).
Proof.
  induction fuel as [|fuel IH]; intros r fs u sp ds r1 fs1 E; cbn [read_all check_points] in *; [discriminate|].
  destruct (reader_next flt no_transform r fs) as [[r2 fs2] a] eqn:N. pose proof (next_hdr _ _ _ _ _ _ _ N) as Hh.
  destruct a as [[|]|e|x]; try discriminate.
  - destruct (read_all flt fuel r2 fs2) as [[[[l0 b] r3] fs3]|e|x] eqn:R; try discriminate. cbn [obind] in E. injection E as <- -> -> ->.
    cbn [points_of map summary_feed]. change (r_point r2) with (mkPoint (r_data r2) (r_hdr r2)). rewrite Hh. unfold so_add. cbn [s_sum s_points].
    destruct (summary_add u (mkPoint (r_data r2) (r_hdr r))) as [u1|e|x] eqn:A; cbn [obind]; try reflexivity.
    rewrite (IH _ _ _ _ _ _ _ R), Hh. unfold points_of.
    assert (Fi : u_first u1 = false).
    { clear - A. unfold summary_add in A. repeat (apply Outcome.obind_ok in A as (? & _ & A) || match type of A with context [let (_, _) := ?x in _] => destruct x end).
      apply Writer_Append.Ok_inj in A. subst u1. reflexivity. }
    rewrite Fi. reflexivity.
  - injection E as <- <- <-. cbn [points_of map summary_feed obind]. destruct (u_first u); reflexivity.
Qed.

(** las2las --min-offset: reading twice, the summary, the loop. *)
From Coq Require Import ZArith List Bool Lia Lra String Ascii Reals.
From Coq Require Import ZifyBool ZifyNat.
Import ListNotations.
From Flocq Require Import Core.
From Verif Require Import Outcome Bytes Float64 Float64_Proofs Classif_Model Schema_Model Schema_Spec Schema_Proofs Header_Model Point_Model Point_Spec Point_Api Point_Proofs Point_Hist
  Coord_Api Coord_Proofs Coord_Header Stream_Model IO_Spec Reader_Proofs Reader_Model Reader_Spec Reader_Schema Reader_Api Reader_Open Reader_Hist Reader_Filter Iter_Spec Iter_Model Iter_Proofs Rewrite_Proofs Prop_Rewrite Prop_Reader Writer_Model Writer_Api
  Summary_Model Summary_Spec Summary_Proofs Prop_Summary Text_Model Text_Proofs Las2las_Spec Las2las_Model Las2las_Summary Las2las_Points Las2las_Main Las2las_Loop Las2las_Split Prop_Las2las
  Cols_Spec Cols_Proofs Prop_Cols Txt_Model Txt_Spec Txt_Proofs Lasinfo_Spec Lasinfo_Model Lasinfo_Proofs Lasinfo_Main Prop_Lasinfo Hdropt_Spec Minoff_Spec Minoff_Model.
Local Open Scope Z_scope.
Local Notation length := List.length (only parsing).

(** ** Reading again after Reset *)
Lemma delivered_reset t F keep fuel r : standard F -> filterable F keep -> (Z.to_nat (f_npts F) < fuel)%nat -> rinv F r ->
  exists r1 r2, reader_reset (t_xml t) r = Ok r1 /\ shows_file F (r_hdr r1) /\
    read_all (the_filter keep) fuel r1 tt = Ok (delivered F (r_hdr r1) keep, true, r2, tt) /\ rinv F r2.
Proof.
  intros (HA & HP) HK Hf I. pose proof HA as (HF & HN & FS & HC). pose proof (proj1 HF) as HB. destruct (fields_nonneg F HB) as (_ & N0 & _).
  destruct (reset_ok (t_xml t) F r HF HN FS I) as (r1 & E & I1 & C1 & _). exists r1.
  assert (R : reads (F, 0, r_data r1) r1).
  { split; [exact HA|]. split; [|reflexivity]. cbn [fst snd]. split; [exact I1|]. split; [exact C1|]. split; lia. }
  destruct keep as [k|]; cbn [the_filter delivered].
  - destruct HK as (HE & HN1); [discriminate|].
    destruct (read_all_from F (r_hdr r1) k HF (proj1 HC) HE HN1 fuel 0 r1) as (r2 & ER & I2 & _).
    + now rewrite Z.sub_0_r.
    + split; [exact I1|]. split; [reflexivity|]. split; [exact C1|]. split; [lia|]. lia.
    + exists r2. split; [exact E|]. split; [exact (proj1 I1)|]. split; [rewrite ER; reflexivity|exact I2].
  - destruct (read_plain fuel F 0 _ r1 R ltac:(lia) ltac:(lia)) as (r2 & ER & I2). exists r2. split; [exact E|]. split; [exact (proj1 I1)|]. auto.
Qed.

Lemma delivered_alike F keep h1 h2 : judges_alike F keep -> shows_file F h1 -> shows_file F h2 -> delivered F h1 keep = delivered F h2 keep.
Proof.
  intros J S1 S2. destruct keep as [k|]; [|reflexivity]. cbn [delivered judges_alike] in *. cbv zeta.
  assert (EF : forall l, filter (fun d => k (mkPoint d h1)) l = filter (fun d => k (mkPoint d h2)) l) by (intros; apply filter_ext; intros; now apply J).
  rewrite EF. assert (EI : isolated_last F (fun d => k (mkPoint d h1)) = isolated_last F (fun d => k (mkPoint d h2))).
  { unfold isolated_last. rewrite !(J _ h1 h2 S1 S2). reflexivity. }
  now rewrite EI.
Qed.

(** ** The summary *)
Definition both_of (h : header) (u : summary) : Prop :=
  exists mn mx, u_min u = Some mn /\ u_max u = Some mx /\ point_wf mn /\ point_wf mx /\ p_hdr mn = h /\ p_hdr mx = h.

Lemma add_both fmt h u ps p : inv fmt u ps -> both_of h u -> usual_point fmt p -> exists u', summary_add u p = Ok u' /\ inv fmt u' (ps ++ [p]) /\ both_of h u'.
Proof.
  intros (C & Fi & Ht & Hc & q0 & r0 & mn & mx & lo & hi & F1 & F2 & E1 & E2 & S1 & S2 & L & Hh) (mn0 & mx0 & M1 & M2 & _ & _ & P1 & P2) (W & Fp & _).
  assert (mn0 = mn /\ mx0 = mx) as [-> ->] by (split; congruence).
  destruct (minmax_st (u_have_time u) (u_have_color u) p q0 mn lo r0 mx hi W S1 S2) as (mn' & mx' & M & S1' & S2'); try congruence; [rewrite Fp; assumption ..|].
  pose proof C as (_ & T1 & _ & _ & _ & T2 & T3).
  destruct (tally_snoc _ _ _ (class_get (view_of p AClassification)) T1) as (cl & I1 & T1'); [apply class_get_range|].
  destruct (tally_snoc _ _ _ (view_of p AReturnNumber) T2) as (rt & I2 & T2'); [apply small_field; [exact W|cbn; auto]|].
  destruct (tally_snoc _ _ _ (view_of p ANumberOfReturns) T3) as (pu & I3 & T3'); [apply small_field; [exact W|cbn; auto]|].
  eexists. split; [|split].
  - eapply add_eq; [exact W|rewrite Fi, E1, E2; reflexivity|reflexivity|exact M|exact I1|exact I2|exact I3].
  - split; [|split; [|split; [|split]]].
    + apply counts_snoc; assumption.
    + reflexivity.
    + exact Ht.
    + exact Hc.
    + exists q0, r0, mn', mx', (lowf (view_of p) lo), (highf (view_of p) hi). split; [exact F1|]. split; [exact F2|]. split; [reflexivity|]. split; [reflexivity|].
      split; [exact S1'|]. split; [exact S2'|]. split; [now apply lows_snoc|now apply highs_snoc].
  - exists mn', mx'. split; [reflexivity|]. split; [reflexivity|].
    destruct S1 as (_ & X1 & _). destruct S2 as (_ & X2 & _). destruct S1' as (Y1 & Z1 & _). destruct S2' as (Y2 & Z2 & _).
    split; [exact Y1|]. split; [exact Y2|]. split; congruence.
Qed.
Lemma first_both fmt h h0 p : usual_point fmt p -> p_hdr p = h -> exists u', summary_add (summary_new h0) p = Ok u' /\ inv fmt u' [p] /\ both_of h u'.
Proof.
  intros U Hp. pose proof U as (W & Fp & HT & HC). set (u := summary_new h0).
  assert (FP : exists h2, first_point u p = Ok (p, p, h2, has_dim (p_hdr p) "Red" && has_dim (p_hdr p) "Green" && has_dim (p_hdr p) "Blue", has_dim (p_hdr p) "Time")).
  { unfold first_point. destruct (h_scale (p_hdr p)) as [[sx sy] sz]. destruct (h_offset (p_hdr p)) as [[ox oy] oz].
    set (h1 := set_offset (set_scale (u_header u) sx sy sz) ox oy oz). change (u_have_header u) with false. cbn [obind].
    destruct (negb (get_format h1 =? get_format (p_hdr p))).
    - destruct (format_change h1 (get_format (p_hdr p))) as (h' & E); [fold (p_format p); apply W|]. rewrite E. cbn [obind]. exists h'. reflexivity.
    - cbn [obind]. exists h1. reflexivity. }
  destruct FP as (h2 & FP).
  assert (Sq : st p p (view_of p)) by (apply st_refl; [exact W|now apply view_agrees]).
  destruct (minmax_st _ _ p p p (view_of p) p p (view_of p) W Sq Sq eq_refl eq_refl
    ltac:(rewrite Fp; exact HT) ltac:(rewrite Fp; exact HC)) as (mn' & mx' & M & S1' & S2').
  pose proof (new_counts h0) as C. pose proof C as (_ & T1 & _ & _ & _ & T2 & T3).
  destruct (tally_snoc _ _ _ (class_get (view_of p AClassification)) T1) as (cl & I1 & T1'); [apply class_get_range|].
  destruct (tally_snoc _ _ _ (view_of p AReturnNumber) T2) as (rt & I2 & T2'); [apply small_field; [exact W|cbn; auto]|].
  destruct (tally_snoc _ _ _ (view_of p ANumberOfReturns) T3) as (pu & I3 & T3'); [apply small_field; [exact W|cbn; auto]|].
  eexists. split; [|split].
  - eapply add_eq; [exact W|exact FP|reflexivity|exact M|exact I1|exact I2|exact I3].
  - split; [|split; [|split; [|split]]].
    + change [p] with ([] ++ [p]). apply counts_snoc; assumption.
    + reflexivity.
    + exact HT.
    + exact HC.
    + exists p, p, mn', mx', (lowf (view_of p) (view_of p)), (highf (view_of p) (view_of p)). split; [exact Fp|]. split; [exact Fp|]. split; [reflexivity|]. split; [reflexivity|].
      split; [exact S1'|]. split; [exact S2'|]. split; [apply lows_one|apply highs_one].
  - exists mn', mx'. split; [reflexivity|]. split; [reflexivity|].
    destruct S1' as (Y1 & Z1 & _). destruct S2' as (Y2 & Z2 & _). split; [exact Y1|]. split; [exact Y2|]. split; congruence.
Qed.
Lemma feed_both fmt h ps' : forall u ps, inv fmt u ps -> both_of h u -> Forall (usual_point fmt) ps' ->
  exists u', summary_feed u ps' = Ok u' /\ both_of h u'.
Proof.
  induction ps' as [|p ps' IH]; intros u ps I Fr F; [exists u; auto|].
  destruct (add_both fmt h u ps p I Fr (Forall_inv F)) as (u1 & E & I1 & Fr1). cbn [summary_feed]. rewrite E. cbn [obind].
  destruct (IH u1 _ I1 Fr1 (Forall_inv_tail F)) as (u2 & E2 & Fr2). eauto.
Qed.

Lemma corner_known F h h0 ds : plain_file F -> shows_file F h -> sane_scaling F -> Forall (of_file F h) ds -> ds <> [] ->
  exists u rep dmn dmx, summary_feed (summary_new h0) (points_of h ds) = Ok u /\ summary_report u = Ok rep /\
    k_min rep = mkPoint dmn h /\ k_max rep = mkPoint dmx h /\ of_file F h dmn /\ of_file F h dmx /\
    forall ax, least_f (map (coordinate F ax) ds) (coordinate F ax dmn) /\ greatest_f (map (coordinate F ax) ds) (coordinate F ax dmx).
Proof.
  intros HP Sh SS OF N. set (ps := points_of h ds).
  assert (U : Forall (usual_point (fmt F)) ps).
  { unfold ps, points_of. apply Forall_map. eapply Forall_impl; [|exact OF]. intros d Od. now apply usual_file. }
  assert (X : exists p ps', ps = p :: ps' /\ p_hdr p = h).
  { unfold ps, points_of. destruct ds as [|d l]; [contradiction|]. cbn [map]. eexists _, _. split; [reflexivity|]. reflexivity. }
  destruct X as (p & ps' & Eps & Hp). rewrite Eps in *.
  destruct (first_both (fmt F) h h0 p (Forall_inv U) Hp) as (u1 & E1 & I1 & B1).
  destruct (feed_both (fmt F) h ps' u1 [p] I1 B1 (Forall_inv_tail U)) as (u & E2 & (mn & mx & M1 & M2 & W1 & W2 & P1 & P2)).
  assert (EF : summary_feed (summary_new h0) (p :: ps') = Ok u) by (cbn [summary_feed]; rewrite E1; exact E2).
  assert (ST : started p (summary_new h0)) by (exists h0; left; reflexivity).
  destruct (C44_extremes (fmt F) p ps' _ U ST) as (rep & ER & QX & TX). unfold report_on in ER. rewrite EF in ER. cbn [obind] in ER.
  assert (KM : k_min rep = mn /\ k_max rep = mx).
  { unfold summary_report in ER. rewrite M1, M2 in ER. apply Writer_Append.Ok_inj in ER. subst rep. auto. }
  destruct KM as (K1 & K2). destruct mn as [dmn hmn]. destruct mx as [dmx hmx]. cbn [p_hdr] in P1, P2. subst hmn hmx. rewrite K1, K2 in *.
  assert (SH : shows F h) by now apply file_shows.
  assert (Omn : of_file F h dmn) by (split; assumption). assert (Omx : of_file F h dmx) by (split; assumption).
  exists u, rep, dmn, dmx. split; [exact EF|]. split; [exact ER|]. split; [exact K1|]. split; [exact K2|].
  split; [exact Omn|]. split; [exact Omx|].
  rewrite <- Eps in *. intros ax. now apply (coordinate_extremes F h ds dmn dmx).
Qed.

Lemma summarize_feeds {FS} (flt : option (FS -> point -> bool * FS)) fuel : forall r fs u ds r1 fs1,
  read_all flt fuel r fs = Ok (ds, true, r1, fs1) ->
  summarize_loop flt fuel r fs u = (let! u' := summary_feed u (r_point r :: points_of (r_hdr r) ds) in Ok (r1, fs1, u')).
Proof.
  induction fuel as [|fuel IH]; intros r fs u ds r1 fs1 E; cbn [read_all summarize_loop] in *; [discriminate|].
  cbn [summary_feed]. destruct (summary_add u (r_point r)) as [u1|e|x]; cbn [obind]; try reflexivity.
  destruct (reader_next flt no_transform r fs) as [[r2 fs2] a] eqn:N. pose proof (next_hdr _ _ _ _ _ _ _ N) as Hh.
  destruct a as [[|]|e|x]; try discriminate.
  - destruct (read_all flt fuel r2 fs2) as [[[[l0 b] r3] fs3]|e|x] eqn:R; try discriminate. cbn [obind] in E. injection E as <- -> -> ->.
    rewrite (IH _ _ _ _ _ _ R), Hh. cbn [points_of map]. change (r_point r2) with (mkPoint (r_data r2) (r_hdr r2)). now rewrite Hh.
  - injection E as <- <- <-. reflexivity.
Qed.

Lemma summarize_known t F keep fuel r : standard F -> sane_scaling F -> filterable F keep -> (Z.to_nat (f_npts F) < fuel)%nat -> rinv F r ->
  exists h1, shows_file F h1 /\
    (delivered F h1 keep = [] -> summarize_reader t (the_filter keep) fuel r tt = Throw ERuntime) /\
    (delivered F h1 keep <> [] -> exists r2 a dmn, summarize_reader t (the_filter keep) fuel r tt = Ok (r2, tt, a) /\ rinv F r2 /\
       of_file F h1 dmn /\ t_x a = coordinate F AxX dmn /\ t_y a = coordinate F AxY dmn /\ t_z a = coordinate F AxZ dmn /\
       forall ax, least_f (map (coordinate F ax) (delivered F h1 keep)) (coordinate F ax dmn)).
Proof.
  intros HS SS HK Hf I. pose proof HS as (HA & HP). destruct (header_new_facts (t_doy t) (t_year t)) as (h0 & EH & _).
  destruct (delivered_reset t F keep (S fuel) r HS HK ltac:(lia) I) as (r1 & r2 & ER & Sh & RA & I2). exists (r_hdr r1). split; [exact Sh|].
  pose proof (delivered_recs F (r_hdr r1) keep HS) as (RO & _).
  assert (OF : Forall (of_file F (r_hdr r1)) (delivered F (r_hdr r1) keep)).
  { eapply Forall_impl; [|exact RO]. intros d (B & L). split; [now apply (file_point F (r_hdr r1) d HP Sh B L)|now apply file_shows]. }
  set (ds := delivered F (r_hdr r1) keep) in *. clearbody ds. unfold summarize_reader. rewrite EH. cbn [obind]. rewrite ER. cbn [obind].
  cbn [read_all] in RA. destruct (reader_next (the_filter keep) no_transform r1 tt) as [[r3 []] a] eqn:N. pose proof (next_hdr _ _ _ _ _ _ _ N) as Hh.
  destruct a as [[|]|e|x]; try discriminate.
  - destruct (read_all (the_filter keep) fuel r3 tt) as [[[[l0 b] r4] []]|e|x] eqn:R; try discriminate. cbn [obind] in RA. injection RA as <- -> ->.
    split; [discriminate|]. intros _. rewrite (summarize_feeds _ _ _ _ _ _ _ _ R).
    change (r_point r3) with (mkPoint (r_data r3) (r_hdr r3)). rewrite Hh.
    destruct (corner_known F (r_hdr r1) h0 (r_data r3 :: l0) HP Sh SS OF ltac:(discriminate)) as (u & rep & dmn & dmx & EF & EP & K1 & K2 & O1 & O2 & L).
    change (mkPoint (r_data r3) (r_hdr r1) :: points_of (r_hdr r1) l0) with (points_of (r_hdr r1) (r_data r3 :: l0)). rewrite EF. cbn [obind]. rewrite EP. cbn [obind].
    rewrite K1, K2, (tree_value F _ _ O1), (tree_value F _ _ O2). cbn [obind]. exists r2, (record_tree F dmn), dmn.
    split; [reflexivity|]. split; [exact I2|]. split; [exact O1|]. split; [reflexivity|]. split; [reflexivity|]. split; [reflexivity|]. intros ax. apply L.
  - injection RA as <- <-. split; [reflexivity|]. intros X. contradiction.
Qed.

(** ** The loop *)
Fixpoint shift_feed (h : header) (w : writer) (q : csummary) (ps : list point) : outcome (writer * csummary) :=
  match ps with
  | [] => Ok (w, q)
  | p :: ps => let! q := cs_add q p in let! p' := set_header p h in let! w := write_point w p' in shift_feed h w q ps
  end.
Lemma shift_feeds {FS} h (flt : option (FS -> point -> bool * FS)) fuel : forall r fs w q ds r1 fs1,
  read_all flt fuel r fs = Ok (ds, true, r1, fs1) ->
  shift_loop h flt fuel r fs w q = (let! (w', q') := shift_feed h w q (points_of (r_hdr r) ds) in Ok (r1, w', q')).
Proof.
  induction fuel as [|fuel IH]; intros r fs w q ds r1 fs1 E; cbn [read_all shift_loop] in *; [discriminate|].
  destruct (reader_next flt no_transform r fs) as [[r2 fs2] a] eqn:N. pose proof (next_hdr _ _ _ _ _ _ _ N) as Hh.
  destruct a as [[|]|e|x]; try discriminate.
  - destruct (read_all flt fuel r2 fs2) as [[[[l0 b] r3] fs3]|e|x] eqn:R; try discriminate. cbn [obind] in E. injection E as <- -> -> ->.
    cbn [points_of map shift_feed]. change (r_point r2) with (mkPoint (r_data r2) (r_hdr r2)). rewrite Hh.
    destruct (cs_add q (mkPoint (r_data r2) (r_hdr r))) as [q1|e|x]; cbn [obind]; try reflexivity.
    destruct (set_header (mkPoint (r_data r2) (r_hdr r)) h) as [p1|e|x]; cbn [obind]; try reflexivity.
    destruct (write_point w p1) as [w1|e|x]; cbn [obind]; try reflexivity.
    rewrite (IH _ _ _ _ _ _ _ R), Hh. reflexivity.
  - injection E as <- <- <-. reflexivity.
Qed.
Lemma shift_fed h ps ps' : Forall2 (fun p p' => set_header p h = Ok p') ps ps' -> forall w q w' q', cs_feed q ps = Ok q' -> Writer_Api.write_points w ps' = Ok w' -> shift_feed h w q ps = Ok (w', q').
Proof.
  induction 1 as [|p p' ps ps' E _ IH]; intros w q w' q' EQ EW; cbn [cs_feed Writer_Api.write_points shift_feed] in *.
  - apply Writer_Append.Ok_inj in EQ, EW. congruence.
  - destruct (cs_add q p) as [q1| |]; try discriminate. cbn [obind] in *. rewrite E. cbn [obind]. destruct (write_point w p') as [w1| |]; try discriminate. cbn [obind] in *. now apply IH.
Qed.

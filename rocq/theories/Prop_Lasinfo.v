(** C76: what lasinfo says about the points.  Vocabulary: Lasinfo_Spec. *)
From Coq Require Import ZArith List Bool Lia Lra String Ascii Reals.
From Coq Require Import ZifyBool ZifyNat.
Import ListNotations.
From Flocq Require Import Core BinarySingleNaN Binary Bits.
From Verif Require Import Outcome Bytes Float64 Float64_Proofs Classif_Model Schema_Model Schema_Spec Schema_Proofs Header_Model Point_Model Point_Spec Point_Api Point_Proofs Point_Hist
  Coord_Api Coord_Proofs Coord_Header Stream_Model IO_Spec Reader_Proofs Reader_Model Reader_Spec Reader_Schema Reader_Api Reader_Open Reader_Hist Rewrite_Proofs Prop_Rewrite Prop_Reader Writer_Api
  Summary_Model Summary_Spec Summary_Proofs Prop_Summary Text_Model Text_Proofs Las2las_Spec Las2las_Model Las2las_Summary Las2las_Points Las2las_Main Las2las_Loop Las2las_Split Prop_Las2las
  Cols_Spec Cols_Proofs Prop_Cols Txt_Model Txt_Spec Txt_Proofs Lasinfo_Spec Lasinfo_Model Lasinfo_Proofs Lasinfo_Main.
Local Open Scope string_scope.
Local Open Scope list_scope.
Local Open Scope Z_scope.
Local Notation length := List.length (only parsing).

(** ** What the reader delivers *)
Lemma usual_file F h rec : plain_file F -> shows_file F h -> of_file F h rec -> usual_point (fmt F) (mkPoint rec h).
Proof.
  intros HP Sh (W & FM & _). split; [exact W|]. split; [exact FM|]. pose proof Sh as (P & Pg & PC & PB & Psr & PI & PF). pose proof HP as (_ & _ & HL & _).
  assert (PI' : sinv 8 (h_schema h) (std_fields (fmt F))).
  { unfold layout_of, extra_fields in PI. unfold f_reclen in HL. rewrite <- HL, Z.eqb_refl, app_nil_r in PI. exact PI. }
  assert (HD : forall n, has_dim h n = true <-> In n (map f_name (std_fields (fmt F)))).
  { intros n. unfold has_dim. rewrite (sinv_has_iff _ _ _ n PI'). destruct (get_dimension (h_schema h) n); split; eauto; try discriminate. intros (d & X). discriminate. }
  cbn [p_hdr]. rewrite !andb_true_iff, !HD. unfold fmt in *. pose proof W as (Wf & _). unfold p_format in Wf. cbn [p_hdr] in Wf. rewrite FM in Wf.
  assert (E : u_at F 104 1 = 0 \/ u_at F 104 1 = 1 \/ u_at F 104 1 = 2 \/ u_at F 104 1 = 3) by lia. clear - E.
  destruct E as [E|[E|[E|E]]]; rewrite E; cbn [std_fields attr_range Z.eqb Pos.eqb orb app map f_name In];
    split; split; intros X; try discriminate; try (exfalso; apply X; reflexivity); try tauto;
    decompose [or and] X; try discriminate; try contradiction.
Qed.

Lemma delivers t F keep fuel : translatable F -> filterable F keep -> (Z.to_nat (f_npts F) < fuel)%nat ->
  exists r r1, reader_open (t_xml t) (t_doy t) (t_year t) F = Ok r /\
    read_all (the_filter keep) fuel r tt = Ok (delivered F (r_hdr r) keep, true, r1, tt) /\ plain_file F /\ shows_file F (r_hdr r) /\
    Forall (of_file F (r_hdr r)) (delivered F (r_hdr r) keep) /\ recs_ok F (delivered F (r_hdr r) keep).
Proof.
  intros (HS & _) HK Hf. destruct (delivered_ok t F keep fuel HS HK Hf) as (r & r1 & E & RA & _). exists r, r1. split; [exact E|]. split; [exact RA|].
  pose proof HS as (HA & HP). destruct (plain_header (t_xml t) (t_doy t) (t_year t) F HP) as (r' & E' & Sh & _). rewrite E in E'. apply Writer_Append.Ok_inj in E'. subst r'.
  split; [exact HP|]. split; [exact Sh|]. pose proof (delivered_recs F (r_hdr r) keep HS) as R. split; [|exact R].
  destruct R as (R & _). eapply Forall_impl; [|exact R]. intros d (B & L). split; [now apply (file_point F (r_hdr r) d HP Sh B L)|now apply file_shows].
Qed.

Lemma number_map {V W} (f : W -> bool) (g : V -> W) l : number_of f (map g l) = number_of (fun x => f (g x)) l.
Proof. unfold number_of. f_equal. induction l as [|x l IH]; [reflexivity|]. cbn [map filter]. destruct (f (g x)); cbn [List.length]; congruence. Qed.
Lemma view_field F h ds a : Forall (of_file F h) ds -> (exists s w, forall fm, attr_range fm a = Some (s, w, false)) -> vw a (points_of h ds) = map (field (fmt F) a) ds.
Proof.
  intros OF (s & w & R). unfold vw, points_of. rewrite map_map. apply map_ext_in. intros d Hd. rewrite Forall_forall in OF. pose proof (OF d Hd) as Od.
  pose proof (vw_get _ a (proj1 Od) ltac:(rewrite R; discriminate)) as E. rewrite (unsigned_value F h d Od a ltac:(eauto)) in E. now apply Writer_Append.Ok_inj in E.
Qed.
Lemma count_small {V} (f : V -> bool) l : Z.of_nat (length l) < 2 ^ 32 -> number_of f l mod 2 ^ 32 = number_of f l.
Proof. intros L. pose proof (number_le f l). apply Z.mod_small. lia. Qed.
Lemma tally_tallied n vs l : tally n vs l -> Z.of_nat (length vs) < 2 ^ 32 -> nonzero_from 0 l = tallied (upto 0 n) vs.
Proof.
  intros (L & T) B. rewrite (nonzero_tallied l 0 vs); [|intros i Hi; rewrite Z.sub_0_r, T by lia; now apply count_small|lia]. unfold upto. now rewrite L, Nat.sub_0_r.
Qed.
Lemma tallied_ext ids vs ws : vs = ws -> tallied ids vs = tallied ids ws.
Proof. now intros ->. Qed.

(** What the summary knows *)
Definition extremes_at (F : list Z) (ds : list (list Z)) (dmn dmx : list Z) : Prop :=
  (forall c, In c whole_letters -> least (map (whole_of F c) ds) (whole_of F c dmn) /\ greatest (map (whole_of F c) ds) (whole_of F c dmx)) /\
  (forall ax, least_f (map (coordinate F ax) ds) (coordinate F ax dmn) /\ greatest_f (map (coordinate F ax) ds) (coordinate F ax dmx)) /\
  (least_f (map (real_of F "t"%char) ds) (real_of F "t"%char dmn) /\ greatest_f (map (real_of F "t"%char) ds) (real_of F "t"%char dmx)).
Lemma same_scaling F h : sane_scaling F -> shows F h -> scaling_differs h h = false.
Proof.
  intros SS (_ & S). unfold scaling_differs.
  assert (X : forall ax, f64_fin (scale_of ax h) = true /\ f64_fin (Coord_Api.offset_of ax h) = true).
  { intros ax. destruct (S ax) as [-> ->]. destruct (scaling_ax F SS ax) as ((A & _) & _ & (B & _)). auto. }
  pose proof (X AxX) as (X1 & X2). pose proof (X AxY) as (Y1 & Y2). pose proof (X AxZ) as (Z1 & Z2).
  unfold scale_of, Coord_Api.offset_of, axis_of in *. destruct (h_scale h) as [[sx sy] sz]. destruct (h_offset h) as [[ox oy] oz]. cbn [x_of y_of z_of fst snd] in *.
  rewrite !compare_distance_refl by assumption. reflexivity.
Qed.
Lemma summary_known F h h0 ds : plain_file F -> shows_file F h -> sane_scaling F -> Forall (of_file F h) ds -> recs_ok F ds -> ds <> [] ->
  exists u rep dmn dmx, summary_feed (summary_set_header (summary_new h0) h) (points_of h ds) = Ok u /\ summary_report u = Ok rep /\ summary_copy u = Ok u /\
    u_header u = h /\ u_have_header u = true /\
    k_min rep = mkPoint dmn h /\ k_max rep = mkPoint dmx h /\ of_file F h dmn /\ of_file F h dmx /\ extremes_at F ds dmn dmx /\
    k_count rep = Z.of_nat (length ds) /\
    k_returns rep = (if forallb (fun d => whole_of F "r"%char d =? 0) ds then [(1, Z.of_nat (length ds))] else tallied (upto 1 8) (map (whole_of F "r"%char) ds)) /\
    k_pulses rep = tallied (upto 0 8) (map (whole_of F "n"%char) ds) /\ k_classes rep = tallied (upto 0 32) (map (whole_of F "c"%char) ds) /\
    k_withheld rep = number_of (class_flag F 7) ds /\ k_keypoint rep = number_of (class_flag F 6) ds /\ k_synthetic rep = number_of (class_flag F 5) ds.
Proof.
  intros HP Sh SS OF (RO & B) N. set (ps := points_of h ds).
  assert (U : Forall (usual_point (fmt F)) ps).
  { unfold ps, points_of. apply Forall_map. eapply Forall_impl; [|exact OF]. intros d Od. now apply usual_file. }
  assert (LP : length ps = length ds) by (unfold ps, points_of; apply map_length).
  assert (X : exists p ps', ps = p :: ps' /\ p_hdr p = h /\ fitting_header h p).
  { unfold ps, points_of. destruct ds as [|d l]; [contradiction|]. cbn [map]. eexists _, _. split; [reflexivity|]. split; [reflexivity|].
    pose proof (Forall_inv OF) as (W & FM). pose proof (Forall_inv RO) as (_ & Ld). split; [reflexivity|]. cbn [p_data p_hdr]. split; [rewrite Ld; apply (shows_reclen F h Sh)|].
    now apply (same_scaling F h SS). }
  destruct X as (p & ps' & Eps & Hp & Hf). rewrite Eps in *. set (u0 := summary_set_header (summary_new h0) h).
  destruct (feed_all_framed (fmt F) h h0 p ps' U Hp Hf) as (u & EF & (UH & UB & mn & mx & M1 & M2 & W1 & W2 & P1 & P2)). fold u0 in EF.
  assert (ST : started p u0) by (exists h0; right; exists h; auto).
  destruct (started_feed (fmt F) u0 p ps' ST U) as (u' & EF' & I). rewrite EF in EF'. apply Writer_Append.Ok_inj in EF'. subst u'.
  destruct (C44_extremes (fmt F) p ps' u0 U ST) as (rep & ER & QX & TX). unfold report_on in ER. rewrite EF in ER. cbn [obind] in ER.
  assert (KM : k_min rep = mn /\ k_max rep = mx).
  { unfold summary_report in ER. rewrite M1, M2 in ER. apply Writer_Append.Ok_inj in ER. subst rep. auto. }
  destruct KM as (K1 & K2). destruct mn as [dmn hmn]. destruct mx as [dmx hmx]. cbn [p_hdr] in P1, P2. subst hmn hmx. rewrite K1, K2 in *.
  assert (SH : shows F h) by now apply file_shows.
  assert (Omn : of_file F h dmn) by (split; assumption). assert (Omx : of_file F h dmx) by (split; assumption).
  exists u, rep, dmn, dmx. split; [exact EF|]. split; [exact ER|]. split; [unfold summary_copy; rewrite M1, M2; reflexivity|]. split; [exact UH|]. split; [exact UB|]. split; [exact K1|]. split; [exact K2|].
  split; [exact Omn|]. split; [exact Omx|].
  rewrite <- Eps in *. split; [split; [|split]|].
  - intros c Hc. now apply (whole_extremes F h ds dmn dmx).
  - intros ax. now apply (coordinate_extremes F h ds dmn dmx).
  - now apply (time_extremes F h ds dmn dmx).
  - destruct I as ((C1 & T1 & C2 & C3 & C4 & T2 & T3) & _). unfold summary_report in ER. rewrite M1, M2 in ER. apply Writer_Append.Ok_inj in ER. subst rep.
    cbn [k_count k_returns k_pulses k_classes k_withheld k_keypoint k_synthetic]. unfold ps in C1, T1, C2, C3, C4, T2, T3.
    rewrite (view_field F h ds AClassification OF) in * by (eexists _, _; reflexivity). rewrite (view_field F h ds AReturnNumber OF) in T2 by (eexists _, _; reflexivity).
    rewrite (view_field F h ds ANumberOfReturns OF) in T3 by (eexists _, _; reflexivity). rewrite number_map in C2, C3, C4. rewrite count_small in C2, C3, C4 by exact B.
    fold ps in C1. rewrite LP, Z.mod_small in C1 by lia. split; [exact C1|]. split; [|split; [|split; [|split; [|split]]]].
    + change (map (field (fmt F) AReturnNumber) ds) with (map (whole_of F "r"%char) ds) in T2.
      destruct T2 as (L2 & T2). destruct (u_returns u) as [|x l] eqn:El; [discriminate L2|]. injection L2 as L2.
      assert (EN : nonzero_from 1 l = tallied (upto 1 8) (map (whole_of F "r"%char) ds)).
      { rewrite (nonzero_tallied l 1 (map (whole_of F "r"%char) ds)); [unfold upto; now rewrite L2| |lia].
        intros i Hi. specialize (T2 i ltac:(lia)). replace (Z.to_nat i) with (S (Z.to_nat (i - 1))) in T2 by lia. cbn [nth] in T2. rewrite T2. apply count_small. now rewrite map_length. }
      assert (R8 : forall d, In d ds -> 0 <= whole_of F "r"%char d < 8).
      { intros d Hd. rewrite Forall_forall in OF. pose proof (OF d Hd) as Od. pose proof (unsigned_value F h d Od AReturnNumber ltac:(eexists _, _; reflexivity)) as E.
        pose proof (small_field (mkPoint d h) AReturnNumber 8 (proj1 Od) ltac:(cbn; auto)) as S8. pose proof (vw_get (mkPoint d h) AReturnNumber (proj1 Od) ltac:(discriminate)) as E2. rewrite E in E2. apply Writer_Append.Ok_inj in E2. rewrite <- E2 in S8. exact S8. }
      rewrite <- EN. destruct (forallb (fun d => whole_of F "r"%char d =? 0) ds) eqn:FB.
      * assert (Z0 : nonzero_from 1 l = []).
        { rewrite EN. unfold tallied. rewrite forallb_forall in FB. assert (K : forall i, 1 <= i -> number_of (Z.eqb i) (map (whole_of F "r"%char) ds) = 0).
          { intros i Hi. apply number_zero. intros Hin. apply in_map_iff in Hin. destruct Hin as (d & Ed & Hd). specialize (FB d Hd). lia. }
          cbn [upto Nat.sub seq map Z.of_nat]. unfold upto. cbn [Nat.sub seq map]. rewrite !K by lia. reflexivity. }
        rewrite Z0, C1. reflexivity.
      * assert (NE : nonzero_from 1 l <> []).
        { intros Z0. assert (Y : exists d, In d ds /\ whole_of F "r"%char d <> 0).
          { clear - FB. induction ds as [|d l IH]; [discriminate|]. cbn [forallb] in FB. destruct (whole_of F "r"%char d =? 0) eqn:E; [|exists d; split; [now left|lia]].
            destruct (IH FB) as (d' & I & N). exists d'. split; [now right|exact N]. }
          destruct Y as (d & Hd & Nd). pose proof (R8 d Hd) as Rd. pose proof (proj2 (nonzero_from_spec l 1 (whole_of F "r"%char d) (number_of (Z.eqb (whole_of F "r"%char d)) (map (whole_of F "r"%char) ds)))) as K.
          rewrite Z0 in K. apply K. split; [lia|]. split.
          - specialize (T2 (whole_of F "r"%char d) ltac:(lia)). replace (Z.to_nat (whole_of F "r"%char d)) with (S (Z.to_nat (whole_of F "r"%char d - 1))) in T2 by lia. cbn [nth] in T2. rewrite T2. symmetry. apply count_small. now rewrite map_length.
          - intros X. apply number_zero in X. apply X. now apply in_map. }
        destruct (nonzero_from 1 l); [congruence|reflexivity].
    + rewrite (tally_tallied 8 _ _ T3) by (rewrite map_length; exact B). reflexivity.
    + rewrite (tally_tallied 32 _ _ T1) by (rewrite !map_length; exact B). apply tallied_ext. rewrite map_map. apply map_ext. intros d. apply Txt_Proofs.class_get_mod.
    + exact C3.
    + exact C4.
    + exact C2.
Qed.
